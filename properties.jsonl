{"id": "C01", "title": "Register renaming never aliases two live values", "statement": "After any sequence of cycles, no physical register is both on the free list and visible to the program; two different architectural registers never name the same physical register; and every physical register is accounted for exactly once (free, mapped, or held by an in-flight instruction).", "quantifier": "all finite sequences of renamer cycles with arbitrary allocate/commit/mispredict/flush inputs that respect the pipeline protocol, from reset", "why_tests_cant": "aliasing appears only in particular interleavings of allocation, branch checkpoints, commits and squashes; the schedule space is unbounded", "anchors": ["back-end/Ren.cpp:Ren::comb_alloc", "back-end/Ren.cpp:Ren::comb_rename", "back-end/Ren.cpp:Ren::comb_fire", "back-end/Ren.cpp:Ren::comb_pipeline", "back-end/Ren.cpp:Ren::init"]}
{"id": "C02", "title": "Misprediction restores the register map as of the branch; flush restores the committed map", "statement": "When a branch is found mispredicted, the next instruction renamed sees exactly the register map that existed immediately after that branch was renamed; after a pipeline flush it sees the map produced by the committed instructions only, including those committing in the same cycle; and no physical register is leaked by either recovery.", "quantifier": "all histories with any number of nested branches outstanding, any order of resolution", "why_tests_cant": "requires every nesting of checkpoints with wrong-path allocation and concurrent commit", "anchors": ["back-end/Ren.cpp:Ren::comb_fire", "back-end/Ren.cpp:Ren::comb_pipeline"]}
{"id": "C03", "title": "The reorder buffer behaves as a program-ordered queue", "statement": "The reorder buffer holds exactly the dispatched-and-not-yet-committed-or-squashed instructions in program order: dispatch appends, commit removes from the oldest end, a mispredict removes exactly the instructions younger than the branch, a flush removes everything, and full/empty are reported exactly.", "quantifier": "all sequences of dispatch/commit/mispredict/flush cycles at any wrap-around position", "why_tests_cant": "pointer/flag wrap-around and partially filled lines give an unbounded family of histories", "anchors": ["back-end/Rob.cpp:Rob::comb_commit", "back-end/Rob.cpp:Rob::comb_branch", "back-end/Rob.cpp:Rob::comb_fire", "back-end/Rob.cpp:Rob::comb_flush", "back-end/include/Rob.h:Rob"]}
{"id": "C04", "title": "Only finished instructions commit, in order, and a trapping instruction commits alone", "statement": "Every instruction the reorder buffer reports as committed (other than one replaced by an interrupt) has reported all of its expected completion groups; instructions commit oldest first with no gap; and an instruction that redirects the pipeline (exception, CSR, fence.i, sfence, mret/sret, ecall) never commits in the same cycle as a younger or older one.", "quantifier": "all reorder-buffer contents, all completion orders and all same-cycle inputs", "why_tests_cant": "depends on all combinations of head-line contents, completion masks and pending interrupts", "anchors": ["back-end/Rob.cpp:Rob::comb_commit", "back-end/Rob.cpp:Rob::comb_complete", "back-end/include/util.h:rob_cplt_mask_from_issue_port"]}
{"id": "C05", "title": "FENCE does not retire while committed stores are still draining", "statement": "A memory fence instruction is not committed in a cycle in which the store queue reports committed stores that have not reached memory.", "quantifier": "all reorder-buffer head lines and store-queue statuses", "why_tests_cant": "the violating combination (fence alone and complete at the head while stores drain) is one arm among many and invisible on a single core difftest", "anchors": ["back-end/Rob.cpp:Rob::comb_commit", "back-end/Rob.cpp:rob_is_fence"]}
{"id": "C06", "title": "Branch tags uniquely identify unresolved branches", "statement": "Every unresolved branch in flight holds a distinct tag; each in-flight instruction's branch mask contains the tags of exactly the older unresolved branches; resolving a branch frees its tag exactly once; a mispredict frees exactly the tags of the younger branches; a flush frees all tags.", "quantifier": "all sequences of decode/resolve/mispredict/flush cycles", "why_tests_cant": "tag reuse after wrong-path squashes needs long adversarial histories", "anchors": ["back-end/Idu.cpp:Idu::comb_decode", "back-end/Idu.cpp:Idu::comb_branch", "back-end/Idu.cpp:Idu::comb_fire", "back-end/include/Idu.h:Idu"]}
{"id": "C07", "title": "The instruction buffer is a lossless FIFO", "statement": "Instructions leave the instruction buffer in the order the front end delivered them, none lost, none duplicated, for any mix of partial pushes and partial pops; a flush empties it.", "quantifier": "all sequences of push/pop/flush with any sizes", "why_tests_cant": "ring wrap-around with variable group sizes has unboundedly many histories", "anchors": ["back-end/InstructionBuffer.cpp", "back-end/include/InstructionBuffer.h:InstructionBuffer", "back-end/PreIduQueue.cpp:PreIduQueue"]}
{"id": "C08", "title": "A fetch-target-queue index keeps naming the same fetch block until it is retired", "statement": "While any instruction of a fetch block is in flight, looking up its fetch-target-queue index returns the PC and prediction data recorded when the block was accepted; allocation never overwrites a live block; recovery to a branch discards exactly the younger blocks.", "quantifier": "all sequences of allocate/pop/recover/flush", "why_tests_cant": "index reuse after recovery only shows in long histories", "anchors": ["back-end/include/FTQ.h:FTQ", "back-end/PreIduQueue.cpp:PreIduQueue::comb_fire"]}
{"id": "C09", "title": "Instructions issue exactly once and only with their operands available", "statement": "An instruction placed in an issue queue stays there until it is issued or squashed; it is issued at most once; it is issued only to a port able to execute it and only after every one of its source registers has been announced ready; at most one instruction goes to a port per cycle; and no wakeup is lost, including one in the same cycle as dispatch.", "quantifier": "all sequences of enqueue/wakeup/issue/squash on queues of any occupancy", "why_tests_cant": "lost or early wakeups depend on exact slot reuse and same-cycle races", "anchors": ["back-end/include/IssueQueue.h:IssueQueue", "back-end/Isu.cpp:Isu::comb_issue", "back-end/Isu.cpp:Isu::comb_awake", "back-end/Dispatch.cpp:Dispatch::comb_wake"]}
{"id": "C10", "title": "A mispredict squashes exactly the dependent entries of every queue", "statement": "On a mispredict of branch b every issue-queue entry whose branch mask contains b disappears and every other entry is kept unchanged; a flush removes all entries; resolving a branch correctly removes only its bit.", "quantifier": "all queue contents and all branch masks", "why_tests_cant": "subset of masks times occupancies is too large to enumerate", "anchors": ["back-end/include/IssueQueue.h:IssueQueue::flush_br", "back-end/include/IssueQueue.h:IssueQueue::clear_br", "back-end/Exu/include/AbstractFU.h"]}
{"id": "C11", "title": "A global flush empties the execution units", "statement": "After a pipeline flush no instruction fetched before the flush remains in any functional unit or writes a register.", "quantifier": "all functional-unit occupancies and branch masks", "why_tests_cant": "the surviving instruction must have an empty branch mask and be mid-latency exactly at the flush", "anchors": ["back-end/Exu/include/AbstractFU.h", "back-end/Exu/Exu.cpp"]}
{"id": "C12", "title": "Integer results equal the RISC-V specification", "statement": "For every pair of 32-bit operands each ALU operation (RV32I and the Zba/Zbb/Zbc/Zbs instructions the decoder accepts) produces the value given by the ISA manual.", "quantifier": "all 2^64 operand pairs for every operation", "why_tests_cant": "the operand space cannot be enumerated; edge cases such as shift-by-zero rotates or signed overflow are easily missed", "anchors": ["back-end/Exu/include/Fu.h"]}
{"id": "C13", "title": "Multiply and divide equal the RISC-V specification including the corner cases", "statement": "mul/mulh/mulhsu/mulhu/div/divu/rem/remu return the ISA-defined 32-bit value for all operands including division by zero and signed overflow.", "quantifier": "all 2^64 operand pairs", "why_tests_cant": "too many operand pairs; corner cases differ from the host CPU", "anchors": ["back-end/Exu/include/Fu.h:MulUnit", "back-end/Exu/include/Fu.h:DivUnit"]}
{"id": "C14", "title": "Branch resolution is exact", "statement": "For every branch/jump the taken decision, the target and the link value match the ISA, the instruction is always flagged mispredicted when the front end continued at a different address than the ISA-defined next PC, and is not flagged when both the predicted direction and the predicted target were right.", "quantifier": "all operands, PCs, immediates and predictions", "why_tests_cant": "operand, pc and prediction space is unbounded for tests", "anchors": ["back-end/Exu/include/Fu.h:BruUnit"]}
{"id": "C15", "title": "Immediates decoded from an instruction word are the ISA immediates", "statement": "For every 32-bit instruction word the I/S/B/U/J immediates produced by decode equal the sign-extended fields of the ISA encoding.", "quantifier": "all 2^32 instruction words", "why_tests_cant": "one wrong bit in a scattered immediate affects only some encodings", "anchors": ["diff/include/ref.h:immI", "diff/include/ref.h:immS", "diff/include/ref.h:immB", "diff/include/ref.h:immU", "diff/include/ref.h:immJ"]}
{"id": "C16", "title": "The oldest misprediction wins", "statement": "When several branches resolve as mispredicted in one cycle, recovery is performed for the program-order oldest of them, for every position of the reorder-buffer wrap-around.", "quantifier": "all pairs of reorder-buffer positions with wrap flags", "why_tests_cant": "only particular wrap positions distinguish right and wrong comparators", "anchors": ["back-end/Exu/Exu.cpp", "back-end/include/util.h:cmp_inst_age"]}
{"id": "C17", "title": "Supervisor CSRs are views of machine CSRs", "statement": "After any sequence of CSR instructions, traps, returns and external interrupt changes, sstatus, sie and sip read as the masked view of mstatus, mie and mip.", "quantifier": "all sequences of CSR operations, traps and returns", "why_tests_cant": "the two copies can drift apart only through particular sequences", "anchors": ["back-end/Exu/Csr.cpp:Csr::comb_csr_write", "back-end/Exu/Csr.cpp:Csr::comb_exception", "back-end/Exu/Csr.cpp:Csr::comb_interrupt_inject"]}
{"id": "C18", "title": "Trap entry and return are inverse", "statement": "Taking a trap saves the interrupted PC, privilege and interrupt enable, disables interrupts and enters the handler privilege given by the delegation registers; a following mret/sret resumes at the saved PC with the saved privilege and interrupt enable.", "quantifier": "all CSR states, privileges and trap causes", "why_tests_cant": "the product of CSR bits, privileges and causes is too large to test", "anchors": ["back-end/Exu/Csr.cpp:Csr::comb_exception"]}
{"id": "C19", "title": "Interrupts are requested exactly when the privileged specification says so, with the specified cause and vector", "statement": "The core requests an interrupt iff some pending and enabled interrupt is deliverable at the current privilege with the current global enables and delegation; the recorded cause is the highest-priority one and the handler address follows the tvec mode.", "quantifier": "all values of mip, mie, mideleg, mstatus, privilege, tvec", "why_tests_cant": "2^100 states", "anchors": ["back-end/Exu/Csr.cpp:Csr::comb_interrupt", "back-end/Exu/Csr.cpp:Csr::comb_exception"]}
{"id": "C20", "title": "A squashed CSR instruction has no effect", "statement": "A CSR instruction that executed but was squashed (by an interrupt or exception) before commit never changes any CSR.", "quantifier": "all schedules of execute, squash and later commits", "why_tests_cant": "requires an interrupt exactly between execute and commit, followed by a read-only CSR access", "anchors": ["back-end/Exu/Csr.cpp:Csr::comb_csr_read", "back-end/Exu/Csr.cpp:Csr::comb_csr_write"]}
{"id": "C21", "title": "Loads see older stores: forwarding returns the bytes memory would contain", "statement": "When a load is satisfied from the store queue, the value equals what a byte memory would return after applying all older stores in program order; when it is sent to memory no older store overlaps it; otherwise it waits.", "quantifier": "all store-queue contents, addresses, sizes and load positions", "why_tests_cant": "overlap geometry times queue positions times partial data readiness is unbounded", "anchors": ["back-end/Lsu/RealLsu.cpp:RealLsu::comb_stlf", "back-end/Lsu/RealLsu.cpp:check_stlf", "back-end/Lsu/include/MemUtils.h:extract_data"]}
{"id": "C22", "title": "A failed store-conditional is never observable as a store", "statement": "A store-conditional that fails leaves every later load returning the pre-existing memory contents, whether the load is satisfied by memory or by forwarding.", "quantifier": "all store-queue states and load timings", "why_tests_cant": "needs an older undrained store holding the failed SC in the queue while a younger load executes", "anchors": ["back-end/Lsu/RealLsu.cpp:RealLsu::comb_stlf", "back-end/Lsu/RealLsu.cpp:RealLsu::comb_stq_commit"]}
{"id": "C23", "title": "Stores write exactly the addressed bytes", "statement": "A naturally aligned byte/half/word store changes exactly the addressed bytes to the register's low bytes and leaves all others unchanged; a following aligned load of the same address and size returns the stored value, sign- or zero-extended.", "quantifier": "all addresses, data, sizes and memory contents", "why_tests_cant": "the strobe, alignment and extraction code is spread over several modules; the data space is unbounded", "anchors": ["back-end/Lsu/include/MemUtils.h:get_store_strb", "back-end/Lsu/include/MemUtils.h:align_store_data", "back-end/Lsu/include/MemUtils.h:extract_data", "MemSubSystem/DcacheConfig.cpp:apply_strobe"]}
{"id": "C24", "title": "The store queue is a program-ordered queue surviving squashes", "statement": "Stores occupy the store queue in program order; commit marks them oldest first; only committed stores are sent to memory; overlapping stores reach memory in program order; a mispredict drops exactly the stores younger than the branch; a flush drops exactly the uncommitted ones; a store index handed out at dispatch keeps naming the same store.", "quantifier": "all sequences of dispatch/commit/response/squash at all wrap positions", "why_tests_cant": "ring, wrap flag and committed-prefix interplay in unbounded histories", "anchors": ["back-end/Lsu/RealLsu.cpp:RealLsu::comb_dis2lsu", "back-end/Lsu/RealLsu.cpp:RealLsu::comb_flush", "back-end/Lsu/RealLsu.cpp:RealLsu::comb_check", "back-end/Lsu/include/MemUtils.h:stq_distance_from_head_to_boundary"]}
{"id": "C25", "title": "A stale memory response is never attributed to a newer load", "statement": "A response carrying a request identifier is delivered only to the load that sent it: reusing a load-queue slot changes the identifier, and identifiers encode and decode the slot and generation exactly.", "quantifier": "all slot indices and generations", "why_tests_cant": "needs a delayed response to outlive slot reuse; generation space is 2^27", "anchors": ["back-end/Lsu/include/MemUtils.h:make_lsu_load_req_id", "back-end/Lsu/RealLsu.cpp:RealLsu::comb_dcache2lsu_ldq"]}
{"id": "C26", "title": "Cache address decomposition and replacement are sound", "statement": "Splitting an address into tag/set/bank/byte and recombining is the identity; the replacement victim is always a legal way, an invalid way when one exists, and otherwise never the most recently used way.", "quantifier": "all addresses, all PLRU states and access sequences", "why_tests_cant": "universal over addresses and histories", "anchors": ["MemSubSystem/DcacheConfig.cpp:decode", "MemSubSystem/DcacheConfig.cpp:get_addr", "MemSubSystem/DcacheConfig.cpp:choose_plru_tree_victim", "MemSubSystem/DcacheConfig.cpp:plru_touch"]}
{"id": "C27", "title": "Each missing cache line is fetched once and no merged store is lost", "statement": "At most one outstanding miss exists per cache line, the outstanding count is exact and never exceeds the capacity; the line installed on a refill equals the memory line with every store merged into the miss applied in order.", "quantifier": "all sequences of misses, merges, refill responses and installs", "why_tests_cant": "interleavings of merge and refill are unbounded", "anchors": ["MemSubSystem/MSHR.cpp"]}
{"id": "C28", "title": "The write-back buffer preserves evicted data until memory has it", "statement": "Evicted dirty lines leave the write buffer towards memory in order; while a line is buffered a load bypass returns the latest contents including merged stores; no line is dropped or sent twice.", "quantifier": "all sequences of evict/bypass/merge/send/response", "why_tests_cant": "ordering races of merge with send are schedule dependent", "anchors": ["MemSubSystem/WriteBuffer.cpp"]}
{"id": "C29", "title": "The page-table walker computes the Sv32 translation", "statement": "For every root pointer, virtual address and memory contents, the answer the shared walker gives a TLB is the Sv32 walk for that TLB's newest request: a page fault exactly when the algorithm finds no valid leaf, and otherwise that leaf and its level, each entry being a word the program could read at that address. The walker issues only the page-table reads the algorithm prescribes, answers a request once, serves both TLBs in turn and is never forgotten while it waits. The private walker of a TLB does the same with any port delays and ends after at most two reads.", "quantifier": "all satp values, virtual addresses, memories, response delays, flushes and interleavings of the two TLBs", "why_tests_cant": "memory contents, flush points and interleavings are unbounded", "anchors": ["MemSubSystem/include/MemPtwBlock.h", "MemSubSystem/PtwWalker.cpp", "MemSubSystem/MemSubsystem.cpp"]}
{"id": "C30", "title": "TLB translation and permission checks equal Sv32", "statement": "An answer of either TLB other than retry is, in machine mode or with translation off, the address itself; otherwise it is the address or page fault that the privileged specification gives (R/W/X/U/A/D, SUM, MXR, MPRV) for the leaf a page-table walk for this address found over words readable since the last flush, under a root used since then, with the same ASID unless the mapping is global. If the tables did not change since the flush and ASIDs are used consistently, that is the answer of a fresh walk now. A flush leaves no entry and no walk; a walk under way is never lost, and its answer is used by the first request for that page.", "quantifier": "all memories, PTEs, access types, privileges, status bits, addresses and interleavings of flushes, cancellations and requests on both TLBs", "why_tests_cant": "the permission matrix is small but the space of addresses, PTEs and interleavings is not", "anchors": ["back-end/Lsu/include/TlbMmuKernel.h:tlb_kernel_check_perm", "back-end/Lsu/include/TlbMmuKernel.h:tlb_kernel_core_comb", "back-end/Lsu/include/TlbMmuKernel.h:tlb_kernel_compose_paddr", "back-end/Lsu/TlbMmu.cpp:translate_lsu_ports"]}
{"id": "C31", "title": "TLB state survives bit-level packing", "statement": "Encoding TLB entries, walk registers, refills and requests to bit vectors and decoding them returns the same values for all in-range fields; a walk response keeps everything the TLB looks at; the vectors have the declared widths; a call of the TLB logic through the vectors gives the result of the direct call, in every cycle of every run; and the split of the logic into small generators and an output mapper computes the same bits as the whole.", "quantifier": "all field values, table sizes up to 2^32, all input vectors, all executions", "why_tests_cant": "62- to 72-bit entry spaces, 600-bit vectors; the split generators are called by nothing in the repository", "anchors": ["back-end/Lsu/include/TlbMmuKernel.h:tlb_kernel_encode_entry", "back-end/Lsu/include/TlbMmuKernel.h:tlb_kernel_decode_entry", "back-end/Lsu/include/TlbMmuKernel.h:core_output_mapper_comb", "back-end/Lsu/TlbMmu.cpp:run_top_via_io_generator"]}
{"id": "C32", "title": "Physical memory is a word map", "statement": "Reading a physical word returns the last value written to it (or zero), writes to one word never affect another, and the RAM/IO split is invisible.", "quantifier": "all sequences of reads and writes at any addresses", "why_tests_cant": "2^32 addresses times histories", "anchors": ["back-end/PhysMemory.cpp:pmem_read", "back-end/PhysMemory.cpp:pmem_write"]}
{"id": "C33", "title": "Timer interrupt is raised exactly when mtime >= mtimecmp", "statement": "Writing the two halves of the timer and compare registers in any order makes later reads return the written 64-bit values (advanced by elapsed time), and the timer interrupt line equals mtime >= mtimecmp at all times.", "quantifier": "all sequences of timer writes and all simulation times", "why_tests_cant": "64-bit time with wrap-around", "anchors": ["MemSubSystem/include/PeripheralModel.h"]}
{"id": "C34", "title": "DMA transfers are exact memory moves", "statement": "A DMA transfer with a legal range makes the destination equal to the source bytes as they were before the transfer (even if ranges overlap) and changes nothing else; an illegal range changes nothing and reports an error.", "quantifier": "all source, destination, length, memory contents", "why_tests_cant": "overlap and boundary geometry is unbounded", "anchors": ["MemSubSystem/include/PeripheralModel.h"]}
{"id": "C35", "title": "Reference model and core agree on address translation", "statement": "For every page table, address, access type and privilege state, the reference CPU used for difftest grants or denies the access and translates exactly as the core's TLB/walker path does.", "quantifier": "all PTEs, addresses, access kinds and status bits", "why_tests_cant": "difftest only sees the page tables the workload happens to build", "anchors": ["diff/ref.cpp:RefCpu::va2pa", "back-end/Lsu/include/TlbMmuKernel.h:tlb_kernel_check_perm"]}
{"id": "C36", "title": "Reference model and core agree on CSR writes", "statement": "Executing the same CSR instruction from the same CSR state in the reference CPU and in the core leaves the same CSR state and destination value.", "quantifier": "all CSR addresses, operands, operations and states", "why_tests_cant": "difftest only sees the CSR accesses a workload performs", "anchors": ["diff/ref.cpp:RefCpu::RV32CSR", "back-end/Exu/Csr.cpp:Csr::comb_csr_write"]}
{"id": "C37", "title": "Reference model device side effects happen once per store", "statement": "In the reference CPU a UART or interrupt-controller side effect happens only as a result of an executed store to that device register.", "quantifier": "all instruction sequences", "why_tests_cant": "the replay needs a load-reserved after a device store", "anchors": ["diff/ref.cpp:RefCpu::store_data", "diff/ref.cpp:RefCpu::RV32A"]}
{"id": "C38", "title": "The front end's queues lose nothing and hand over a connected sequence of blocks", "statement": "Each of the four front-end queues is a list queue with exact full/empty reports for any pattern of simultaneous read, write, refetch and reset. Wired together in front_top, for any predictor, any redirections and any in-order instruction cache, the front end never reaches one of its process exits, never drops a cache response, keeps predictions aligned with fetched blocks, and hands the back end blocks each of which starts where the previous one ended up pointing (or at the latest redirection).", "quantifier": "all sequences of per-cycle controls, all predictor answers, all cache latencies and contents", "why_tests_cant": "unbounded schedules; alignment of prediction and fetch queues depends on every interleaving of stalls, redirections and responses", "anchors": ["front-end/fifo/fetch_address_FIFO.cpp", "front-end/fifo/instruction_FIFO.cpp", "front-end/fifo/PTAB.cpp", "front-end/fifo/front2bank_FIFO.cpp", "front-end/front_top.cpp"]}
{"id": "C39", "title": "Predecode check redirects exactly wrong predictions it can see", "statement": "The predecode checker corrects the predicted next fetch address exactly when it differs from the address implied by the fetched block itself: the target of the first jump or predicted-taken branch, the predictor's own address for an indirect jump, else the end of the block; and it corrects the directions of slots that are not branches.", "quantifier": "all fetch groups, predictions and instruction words", "why_tests_cant": "combination of group contents and predictions is unbounded", "anchors": ["front-end/predecode.cpp", "front-end/predecode_checker.cpp", "front-end/front_top.cpp"]}
{"id": "C40", "title": "Dispatch fires a prefix of the group, atomically per instruction", "statement": "In each cycle the dispatched instructions form a prefix of the valid ones in program order; an instruction is dispatched only if all of the queue slots it needs were granted, and then all of its micro-operations enter their queues; a non-dispatched instruction leaves nothing behind.", "quantifier": "all groups, resource levels and stall inputs", "why_tests_cant": "resource-exhaustion combinations", "anchors": ["back-end/Dispatch.cpp:Dispatch::comb_dispatch", "back-end/Dispatch.cpp:Dispatch::comb_fire"]}
{"id": "C41", "title": "Operand bypass returns the newest value", "statement": "The value read for a source register is that of the newest producer: a same-cycle execution result takes precedence over a pipelined write-back, which takes precedence over the register file; register zero always reads zero.", "quantifier": "all producer combinations", "why_tests_cant": "same-cycle collisions are rare", "anchors": ["back-end/Prf.cpp:Prf::comb_read", "back-end/Prf.cpp:Prf::comb_write"]}
{"id": "C42", "title": "Delayed wakeups are never lost", "statement": "Every multi-cycle instruction issued announces its result register exactly its latency later, even when several become due in the same cycle.", "quantifier": "all issue schedules of multi-cycle operations", "why_tests_cant": "collisions need operations with different latencies issued at exact distances", "anchors": ["back-end/Isu.cpp:Isu::comb_calc_latency_next", "back-end/Isu.cpp:Isu::comb_awake"]}
{"id": "C43", "title": "Load, store and atomic micro-operations carry the ISA address and data", "statement": "For every load, store, LR, SC and AMO instruction word the address the core sends to the load/store unit is rs1 plus the sign-extended offset (rs1 alone for atomics), the store data is rs2, and the value an AMO stores is the ISA function of the loaded word and rs2; the loaded value goes to rd, and an AMO with rd = x0 still computes its store value.", "quantifier": "all register indices, offsets, register contents and loaded words", "why_tests_cant": "the operand and address space is 2^32 per operand and the decomposition into two or three micro-operations is invisible to result-level tests", "anchors": ["back-end/Dispatch.cpp:Dispatch::decompose_inst", "back-end/Exu/include/Fu.h:AguUnit", "back-end/Exu/include/Fu.h:SduUnit", "back-end/Idu.cpp:Idu::decode"]}
{"id": "C44", "title": "Every issued operation is executed and delivered exactly once, at its latency", "statement": "An operation issued to an execution port is delivered exactly once unless it is squashed. Its result is on the bypass network from the cycle its unit's latency elapses until delivery and never earlier. The port delivers something whenever something is due, multiplications are never late, and the ready mask offers an operation exactly when its unit can accept it.", "quantifier": "all sequences of issued operations, flushes and mispredicts, and all unit latencies", "why_tests_cant": "completions of different units collide on a port in data- and timing-dependent ways", "anchors": ["back-end/Exu/Exu.cpp:Exu::comb_exec", "back-end/Exu/Exu.cpp:Exu::comb_ready", "back-end/Exu/Exu.cpp:Exu::comb_pipeline", "back-end/Exu/include/AbstractFU.h"]}
{"id": "C45", "title": "Only traps and returns change privilege, and user code cannot raise it", "statement": "The privilege level changes only when a trap is taken or a return instruction commits, and code running in user mode cannot reach a higher privilege except through a trap.", "quantifier": "all instruction sequences executed in user mode, all CSR states", "why_tests_cant": "test programs do not execute machine-mode returns or CSR writes in user mode", "anchors": ["back-end/Exu/Csr.cpp:Csr::comb_exception", "back-end/Exu/Csr.cpp:Csr::comb_csr_write", "back-end/Idu.cpp:decode"]}
{"id": "C46", "title": "Device block refines its byte-level description", "statement": "From reset, after any sequence of committed stores, ticks and elapsed time, every byte of physical memory, every timer/DMA register, the pending bits, the characters printed and the RAM-sync notifications are those of a small abstract device; at each tick the two interrupt lines and the claim register are exact; device loads outside the timer/DMA registers return the addressed bytes extended per funct3.", "quantifier": "all event sequences of aligned 32-bit stores, all start times, all addresses", "why_tests_cant": "interleavings of UART, interrupt controller, timer and DMA accesses with sub-word stores are unbounded", "anchors": ["MemSubSystem/include/PeripheralModel.h:on_commit_store", "MemSubSystem/include/PeripheralModel.h:tick", "MemSubSystem/include/PeripheralModel.h:read_load"]}
{"id": "C47", "title": "Sub-word device accesses touch only the addressed bytes", "statement": "A byte or halfword store to a timer or DMA register changes only the addressed bytes, and a narrow load returns only them, extended.", "quantifier": "all device states, registers and access widths", "why_tests_cant": "drivers normally use word accesses, so directed tests never exercise narrow ones", "anchors": ["MemSubSystem/include/PeripheralModel.h:on_commit_store", "MemSubSystem/include/PeripheralModel.h:read_load", "back-end/Lsu/RealLsu.cpp:comb_mmio_in"]}
{"id": "C48", "title": "Every device address takes the uncached path", "statement": "The address test of the load/store unit and the device map of the peripheral model agree, so no device address is cached.", "quantifier": "all 2^32 physical addresses", "why_tests_cant": "the two address maps are written independently; tests touch only the registers software uses", "anchors": ["back-end/include/MemUtils.h:lsu_is_mmio_addr", "MemSubSystem/include/PeripheralModel.h:is_modeled_mmio"]}
{"id": "C49", "title": "The cache answers loads with current memory", "statement": "A load answered HIT returns the word of memory with every store acknowledged before the load was presented applied, whichever of cache, write buffer or arriving line supplies it.", "quantifier": "all request sequences, address patterns, memory contents and memory response timings", "why_tests_cant": "needs a load, a store, a refill and a full write buffer to coincide on one line", "anchors": ["MemSubSystem/RealDcache.cpp:RealDcache::stage2_comb", "MemSubSystem/MemSubsystem.cpp:MemSubsystem::forward_pending_response_from_fill", "MemSubSystem/MSHR.cpp", "MemSubSystem/WriteBuffer.cpp"]}
{"id": "C50", "title": "Each cache request gets one answer and acknowledged stores happen exactly once", "statement": "Every load or store presented at a main tick gets exactly one published answer with its own id; the stores performed are exactly those published HIT, each once, and two stores to one line keep port order.", "quantifier": "all request patterns, cache states and memory response timings, any number of fast ticks between main ticks", "why_tests_cant": "the answer latch, replay kinds and late forwarding interact over many ticks", "anchors": ["MemSubSystem/MemSubsystem.cpp:MemSubsystem::capture_dcache_raw_response", "MemSubSystem/MemSubsystem.cpp:MemSubsystem::forward_pending_response_from_fill", "MemSubSystem/RealDcache.cpp:RealDcache::stage1_comb", "MemSubSystem/RealDcache.cpp:RealDcache::stage2_comb"]}
{"id": "C51", "title": "No acknowledged store is ever lost by the cache", "statement": "A line that is in no cache way, write-buffer entry or miss register, or only in a clean way, is up to date in main memory; once drained, main memory equals the initial memory with all acknowledged stores applied in order.", "quantifier": "all executions of the cache domain against any conforming memory", "why_tests_cant": "lost-update races depend on eviction, merge and refill timing", "anchors": ["MemSubSystem/RealDcache.cpp", "MemSubSystem/DcacheConfig.cpp:write_dcache_line", "MemSubSystem/MSHR.cpp", "MemSubSystem/WriteBuffer.cpp"]}
{"id": "C52", "title": "A fetch answer is the line that was asked for", "statement": "Every response of the instruction cache answers the request being served: it carries its address, it is a page fault only if the translation of its page faults in that cycle, and otherwise its sixteen words are legitimate values (returned by an accepted memory read or a data-cache probe of that very line, now or when the line was installed) of the line of pc in a physical page its virtual page was translated to while it was served; instruction k of the fetch group is the word at pc+4k of the same line.", "quantifier": "All executions: any fetch sequence, redirects, predecode corrections, translations, acceptance and answer delays and orders, probe hits and misses, replacement choices; any memory contents (arbitrary predicate P)", "why_tests_cant": "A wrong line appears only when a cancelled refill, a late answer, an id reuse and a redirect line up; the space of interleavings is unbounded.", "anchors": ["front-end/icache/icache_module.cpp:963-1580", "front-end/icache/icache.cpp:216-353", "front-end/icache/ICacheTop.cpp:226-268,866-1001", "front-end/front_top.cpp:1475,1803-1808"]}
{"id": "C53", "title": "Cancelled instruction fetches are never used and transaction ids never leak or clash", "statement": "A cycle that serves no request (idle, or redirected) gives no response, and an answered request is not answered again; the in-flight flags are exactly the ids of accepted, unanswered reads; a read on offer uses an id of no outstanding read and asks for the line of the request being served; an answer presented is taken at once, or one cycle later when a redirect intervenes.", "quantifier": "All executions; the id statement assumes that acceptance and answer of one read are seen in different cycles (and a witness shows it fails otherwise)", "why_tests_cant": "An id leak needs a redirect in the exact cycle between offer, ready and acceptance; sixteen leaks are needed before the fetch unit hangs.", "anchors": ["front-end/icache/icache_module.cpp:126-133,999-1028,1321-1514", "rv_simu_mmu_v2.cpp restore_axi_cpu_boundary_state"]}
{"id": "C54", "title": "Every instruction fetch is answered", "statement": "A request that is not redirected is answered after at most 62 cycles, not counting cycles in which the surroundings hold it up (translation not ready, all sixteen ids outstanding, the read on offer not accepted, its answer not there).", "quantifier": "All executions and all delays", "why_tests_cant": "Absence of a hang over unbounded delays is not observable by finite tests.", "anchors": ["front-end/icache/icache_module.cpp:963-1580"]}
{"id": "C55", "title": "After fence.i nothing fetched earlier is returned", "statement": "After the cycle of a fence.i, every word the instruction cache returns came from a memory read accepted, or a data-cache probe presented, after that cycle: no table entry, refill in progress, waiting line or outstanding read of before contributes.", "quantifier": "All executions before and after the fence, any memory contents before and after (independent predicates)", "why_tests_cant": "Stale data needs a refill in flight at the fence and a later fetch of the same line with a particular answer order.", "anchors": ["front-end/icache/icache.cpp:324-353", "front-end/icache/icache_module.cpp:1127-1165,1321-1514", "front-end/icache/ICacheTop.cpp:866-1001"]}
{"id": "C56", "title": "Load/store-unit loads on the shared cache port are answered", "statement": "Each load the load/store unit presents on either data-cache port is answered in the next cycle, once, on the same port and with the same id; a hit carries the word of memory; a load pushed off port 1 by a probe or a page-table read is told to try again; no answer to anybody else's request reaches the unit.", "quantifier": "All executions of route block + data cache, any mix of requests, any memory latency", "why_tests_cant": "Needs a collision of a load with a borrowed port in the same cycle, with every kind of cache answer.", "anchors": ["MemSubSystem/MemRouteBlock.cpp:20-138", "MemSubSystem/include/MemRouteBlock.h:14-25"]}
{"id": "C57", "title": "Requests that borrow the data-cache port are served, answered and woken", "statement": "The instruction cache's probe, then the page walker, then the two TLB readers get the port, never the same one twice running; a probe is answered in the next cycle with the word or a miss; a read is answered with the word it asked for, or woken, or kept waiting with a cause; a waiting walker is not forgotten; the instruction cache is served within two cycles and the walker within three.", "quantifier": "All executions of route block + data cache", "why_tests_cant": "Lost wake-ups need two readers told to wait in a particular order; starvation is a statement about all schedules.", "anchors": ["MemSubSystem/MemRouteBlock.cpp:20-138", "MemSubSystem/include/MemRouteBlock.h:27-97"]}
{"id": "C58", "title": "fence.i makes earlier stores visible to instruction fetch", "statement": "After a fence.i, every instruction word fetched is the value some program-order prefix of the stores, containing all stores acknowledged before the fence, gives to that address.", "quantifier": "All executions of instruction cache + route block + data cache + main memory", "why_tests_cant": "Failure needs a store still in a miss register, or a probe meeting a bank conflict, in the few cycles around the refetch.", "anchors": ["front-end/icache/icache_module.cpp:1046-1089", "MemSubSystem/MemRouteBlock.cpp:55-80", "MemSubSystem/RealDcache.cpp:149-181", "rv_simu_mmu_v2.cpp"]}
{"id": "C59", "title": "Reference model executes integer programs as specified and like the core", "statement": "Any program of integer, load, store and atomic read-modify-write instructions on ordinary memory, with interrupts and paging off, changes registers, program counter and memory in the reference CPU exactly as the instruction set says; from equal operands every instruction word gives the destination value and next program counter of the core's execution units.", "quantifier": "all programs, lengths, register and memory contents, and all instruction words", "why_tests_cant": "difftest compares the two on the instructions a workload contains; an error common to both, or in an unused encoding, is invisible", "anchors": ["diff/ref.cpp:RefCpu::exec", "diff/ref.cpp:RefCpu::RISCV", "diff/ref.cpp:RefCpu::RV32IM", "diff/ref.cpp:RefCpu::RV32A", "diff/ref.cpp:RefCpu::store_data"]}
{"id": "C60", "title": "Reference model and core agree on traps and returns", "statement": "From equal control registers, privilege and program counter, the same event (interrupt, environment call, page fault, illegal instruction, mret, sret) leaves the reference CPU and the core's CSR unit with the same control registers, privilege and next program counter.", "quantifier": "all register states, privileges, delegations, pending interrupts and events", "why_tests_cant": "difftest sees the trap combinations a workload produces; an interrupt pending exactly at an ecall, or a fault on the first fetch after one, needs unlucky timing", "anchors": ["diff/ref.cpp:RefCpu::exception", "diff/ref.cpp:RefCpu::RISCV", "back-end/Exu/Csr.cpp:Csr::comb_exception"]}
{"id": "C61", "title": "The MMIO bridge serves requests once and in order, and the core takes its own answers", "statement": "PeripheralAxi answers every request it takes exactly once and in order, with the device value or the bus data extended as the access asks; requests without a built-in device go to the bus once each with the right address, size, strobes and data, and stay on the wires until accepted. Behind the load/store unit every answer taken belongs to the operation waiting.", "quantifier": "all request sequences, bus timings and data, LSU states and squashes", "why_tests_cant": "all devices of the usual workloads are built in and answer in one cycle; the bus path depends on external latencies and on the distance between two MMIO loads", "anchors": ["MemSubSystem/PeripheralAxi.cpp:PeripheralAxi::comb_outputs", "MemSubSystem/PeripheralAxi.cpp:PeripheralAxi::comb_inputs", "back-end/Lsu/RealLsu.cpp:RealLsu::comb_mmio_out", "back-end/Lsu/RealLsu.cpp:RealLsu::comb_mmio_in"]}
{"id": "C62", "title": "Branch histories, return stacks and the next fetch address", "statement": "The global history registers of the branch prediction unit hold the directions of the last committed (speculative: predicted since the last resynchronisation) conditional branches; every folded register is the fold of its history; the path registers depend only on the last sixteen branches; the return stacks hold the return addresses of the innermost calls. Each instruction of a fetched block asks the predictors of its own bank, and the next address is that of the first instruction expected to jump, a return taking the top of the stack, else the next block. The speculative state describes the path being fetched.", "quantifier": "all sequences of commits, redirections and predictor answers", "why_tests_cant": "a wrong history or stack only costs cycles: every program still runs right, so no functional test can fail", "anchors": ["front-end/BPU/BPU.h:BPU_TOP::bpu_core_comb_calc", "front-end/BPU/BPU.h:BPU_TOP::bpu_seq_write", "front-end/BPU/dir_predictor/TAGE_top.h:TAGE_TOP::tage_fh_update_comb", "rv_simu_mmu_v2.cpp:SimCpu::back2front_comb"]}
{"id": "C63", "title": "Predictors are trained with every committed instruction, in order", "statement": "Each predictor bank is trained with exactly the committed instructions of its addresses, once each and in program order, within 500 cycles of the commit; direction predictors get exactly the conditional branches; the update queues never overflow when the reorder buffer heeds the stall, and it does.", "quantifier": "all commit sequences and queue fill levels", "why_tests_cant": "a lost or doubled update changes only prediction accuracy; filling a 500-entry queue needs long runs of commits to one bank", "anchors": ["front-end/BPU/BPU.h:BPU_TOP::bpu_core_comb_calc", "front-end/BPU/BPU.h:BPU_TOP::bpu_seq_write", "back-end/Rob.cpp:Rob::comb_commit"]}
{"id": "C64", "title": "The direction predictor keeps its counters in range and learns", "statement": "All counters stay within their widths; the provider is the longest-history table whose tag matches; each training moves the provider's counter one step towards the outcome and touches only the entries it names; an entry is replaced only on a misprediction, only if not useful; a branch that always goes the same way under one history is predicted right after eight trainings; a matching entry was trained before; the loop predictor predicts the exit of a counted loop (the last two do not hold).", "quantifier": "all reachable table contents, histories and interleavings with trainings of other entries", "why_tests_cant": "a predictor that learns slowly or not at all still gives right results; only accuracy changes", "anchors": ["front-end/BPU/dir_predictor/TAGE_top.h:TAGE_TOP::tage_comb", "front-end/BPU/dir_predictor/TAGE_top.h:TAGE_TOP::tage_pred_select_comb", "front-end/BPU/dir_predictor/TAGE_top.h:TAGE_TOP::tage_update_comb", "front-end/BPU/dir_predictor/TAGE_top.h:TAGE_TOP::tage_seq_write"]}
{"id": "C65", "title": "The type predictor says what was last committed", "statement": "A control-flow prediction repeats the type the latest cycle about that instruction committed; an instruction has at most one entry; updates of other sets do not matter; an update alone in its set is remembered at once; with at most two branches in a set, committed in different cycles, each is predicted as last committed; a confident prediction was confirmed by the three latest cycles about it; several updates in a cycle act as if one after the other, and the last word always counts (the last two do not hold).", "quantifier": "all histories of commit cycles, any number of updates each, and all addresses", "why_tests_cant": "a wrong type only costs a misprediction; set conflicts and same-cycle updates depend on code layout", "anchors": ["front-end/BPU/type_predictor/TypePredictor.h:TypePredictor::type_pred_comb", "front-end/BPU/type_predictor/TypePredictor.h:TypePredictor::type_pred_update_comb"]}
{"id": "C66", "title": "The target predictor gives the last target, and never one of another branch nearby", "statement": "For direct branches, calls and returns the target is that of the latest taken transfer at that place or the fall-back, is remembered at once, and is never forgotten while at most four branches share a set; branches in the same 256 KiB are told apart; an entry is lost only to a branch of its set, when the set is full and no entry is less useful; indirect jumps get a target taken before under the same tag; a jump with one target is predicted from its second time on; the choice between the two caches moves to the one that was right; counters stay within their widths; without an entry the answer is the next instruction, the target history depends on recent targets only, and a jump that alternates between two targets is learned (the last three do not hold).", "quantifier": "all training sequences, all addresses, types and targets", "why_tests_cant": "wrong targets only cost time; aliasing and replacement depend on code layout and long histories", "anchors": ["front-end/BPU/target_predictor/BTB_top.h:BTB_TOP::btb_comb", "front-end/BPU/target_predictor/BTB_top.h:BTB_TOP::btb_pred_output_comb", "front-end/BPU/target_predictor/BTB_top.h:BTB_TOP::btb_seq_write"]}
{"id": "C67", "title": "Fetch follows committed targets", "statement": "The next fetch address is the end of the block, the top of the return stack, the target of some committed taken transfer of the same bank, or the fall-back; for conditional branches, jumps and calls it is the target of the latest taken transfer trained at that place; within 256 KiB that place belongs to one instruction; in a program whose branches fit the tables, a jump or call that comes first in its block is followed to its last committed target; a branch predicted taken is fetched at its target or after it (this does not hold).", "quantifier": "all reachable states of the unit with its type and target tables, all commits, redirections and direction answers", "why_tests_cant": "a wrong next address is repaired by the back end; it shows only as lost cycles", "anchors": ["front-end/BPU/BPU.h:BPU_TOP::bpu_submodule_bind_comb", "front-end/BPU/BPU.h:BPU_TOP::bpu_core_comb_calc", "front-end/BPU/BPU.h:BPU_TOP::bpu_predict_main_comb"]}
{"id": "C68", "title": "The floating point unit computes what Zfinx asks for on every defined word; every other FP word aborts or is misread", "statement": "For every instruction word of the Zfinx operations (fadd, fsub, fmul, fdiv, fsqrt, fsgnj/n/x, fmin, fmax, feq, flt, fle, fclass, fcvt.w/wu.s, fcvt.s.w/wu) decode, decomposition and FPUSoftfloat produce the value the RISC-V manual defines (softfloat's own operations taken as given): the class bit of the operand, the magnitude with the injected sign, the smaller/larger number with -0 < +0 and NaN only if both are NaN; and the reference simulator computes the same value. The words on which the unit fails an assert are exactly characterised; words with another format field, a reserved rounding mode or a fused opcode are treated differently by the core and the reference (refuted agreement).", "quantifier": "all instruction words, all register contents, all softfloat implementations whose less-than is the IEEE order and whose subtraction adds the negated operand", "why_tests_cant": "2^32 words times 2^64 operand pairs; the classes with NaN payloads, both zeros and reserved encodings are rarely hit", "anchors": ["back-end/Exu/include/FPU.h:18-270", "back-end/Idu.cpp:509-522", "diff/ref.cpp:632-841"]}
{"id": "C69", "title": "The gate netlists for floating point addition and multiplication obey the algebra of IEEE 754; their flags and their dynamic rounding mode do not", "statement": "Run on all 2^67 inputs, the gates of fadd.h and fmul.h give: the canonical NaN for every NaN operand, for inf - inf and inf x 0; an infinity with the right sign for the other infinite cases; x + 0 = x, 0 + x = x; x + (-x) = +0, or -0 exactly when rounding down; x + x = x with exponent plus one (and doubled fraction for subnormals); zeros with the right sign; the magnitude of a sum unchanged by negating both operands; x * 1 = 1 * x = x; the sign of a product the exclusive or of the signs, its magnitude independent of them. FPURtl subtracts by negating, x - x = 0. Refuted: quiet NaNs raise invalid in the adder, exact infinities raise division by zero in the multiplier, tiny products raise nothing, and rounding mode 7 truncates where the softfloat unit rounds to nearest.", "quantifier": "all pairs of 32-bit operands, all rounding modes (magnitude symmetry: the modes that treat the signs alike)", "why_tests_cant": "2^67 inputs per netlist, about 10^4 gates with no names; a wrong gate can show on one exponent difference only", "anchors": ["back-end/Exu/include/fadd.h:fadd_io_generator", "back-end/Exu/include/fmul.h:fmul_io_generator", "back-end/Exu/include/FPU.h:275-380"]}
{"id": "C70", "title": "A misprediction removes exactly the memory work that depends on the branch", "statement": "When a branch turns out mispredicted, the loads, stores, waiting-list slots and the reservation whose branch mask contains the branch leave the load/store unit in that cycle, every other load stays as it is, and the stores left are the older ones in program order.", "quantifier": "for all states of the load/store unit, all branch masks and all other inputs of the cycle", "why_tests_cant": "Which loads are in which state when a branch resolves depends on cache, TLB and forwarding timing; a test sees a handful of the combinations of sixteen loads, sixteen stores and sixteen branch tags.", "anchors": ["back-end/Lsu/RealLsu.cpp:RealLsu::comb_flush"]}
{"id": "C71", "title": "The lock-step check stops exactly on a difference and makes the core follow the specified machine", "statement": "For commits without resynchronisation the simulation goes on if and only if each commit is what the reference does at that point: program counter, instruction, faults, 32 registers, control registers (the two driven interrupt bits aside) and stores with their address and bytes. A core that is not stopped therefore has the registers and program counter of the specified machine at every commit. Resynchronisation happens exactly for device accesses, skipped instructions, interrupts and accesses to mip/sip with driven lines, and hands over the core's state.", "quantifier": "all commit sequences, reference states, interrupt lines, store sizes and addresses", "why_tests_cant": "the checker is the test oracle: what it does not compare no test can show, and its false alarms need rare sequences such as a device load between lr and sc", "anchors": ["rv_simu_mmu_v2.cpp:SimCpu::difftest_prepare", "rv_simu_mmu_v2.cpp:SimContext::run_difftest_inst", "diff/diff.cpp:checkregs", "diff/diff.cpp:difftest_sync_from_dut", "diff/diff.cpp:difftest_step"]}
{"id": "C72", "title": "Out-of-order execution on renamed registers computes what executing one instruction at a time would", "statement": "Renaming, the physical register file with its write latch and the bypass network, together with any schedule that reads an operand only when its producer has written back or is on the bypass, give every instruction, also one that will be squashed, the operand values of a machine without renaming that executed all older instructions in order. Results written back are that machine's results, the registers handed to the lock-step check at the k-th retirement of a cycle are those after exactly the instructions retired so far, and the exit register read is that machine's. With the destination the load unit really drives for a load to x0 this fails.", "quantifier": "all instruction streams, functions computed by them, schedules, retirement groups, mispredictions, flushes and numbers of cycles", "why_tests_cant": "a stale operand needs a particular order of wake-up, recycling of a physical register, squash and bypass; a run shows one schedule", "anchors": ["back-end/Ren.cpp:Ren::comb_rename", "back-end/Ren.cpp:Ren::comb_fire", "back-end/Prf.cpp:Prf::comb_read", "back-end/Prf.cpp:Prf::comb_write", "rv_simu_mmu_v2.cpp:SimCpu::difftest_prepare", "back-end/include/BackTop.h:BackTop::get_reg"]}
{"id": "C73", "title": "Decode is handed exactly the fetched path, each instruction once, and the prediction stored for an instruction names its successor in flight", "statement": "The fetch queues, the hand-off in front_cycle with its stall and redirection delays, and the queue before decode together: since the last redirection the instructions accepted, followed by those of a block still waiting, are the valid instructions of the delivered blocks up to each block's first predicted-taken one, each once and in order. They start at the redirection address; after an instruction at a multiple of 4 comes the address its stored prediction gives, which its encoding allows. For neighbours in flight the record the branch unit looks up gives exactly the younger one's address, so an unreported misprediction means the next instruction in flight is the architecturally next one. For an address that is not a multiple of 4 at the end of a line this fails.", "quantifier": "all cache contents and latencies, predictions, stalls, consumption and commit patterns, misprediction and flush times, numbers of cycles", "why_tests_cant": "losing or doubling a block needs a stall, a redirection and a queue boundary in particular adjacent cycles", "anchors": ["rv_simu_mmu_v2.cpp:SimCpu::cycle", "rv_simu_mmu_v2.cpp:SimCpu::front_cycle", "back-end/PreIduQueue.cpp:PreIduQueue::comb_accept_front", "back-end/PreIduQueue.cpp:PreIduQueue::comb_fire", "rv_simu_mmu_v2.cpp:SimCpu::restore_pc"]}
{"id": "C74", "title": "Every store the reorder buffer commits is the store queue's oldest and is ready to be committed", "statement": "The reorder buffer and the store queue together: the stores in the reorder buffer are, in order and with the same indices, the uncommitted entries of the store queue, through dispatch, commit, misprediction and flush. A store commits only after the load/store unit has reported it, and from then on its entry waits for the commit, so the slots the reorder buffer announces are those of the oldest uncommitted entries and the out-of-order assertion of the store queue does not fire. Every report that is not a load's names a store in flight. If an interrupt is taken while the oldest instruction is a store that has not been reported, the store is committed anyway and the assertion ends the simulation.", "quantifier": "all dispatch patterns, addresses, translation results and latencies, cache answers, mispredictions, flushes, report and commit times, numbers of cycles", "why_tests_cant": "the interrupt has to arrive in the few cycles in which an untranslated store is the oldest instruction; an order mismatch needs a squash between two dispatches at the wrap of both queues", "anchors": ["back-end/Rob.cpp:Rob::comb_commit", "back-end/Lsu/RealLsu.cpp:RealLsu::comb_stq_commit", "back-end/Lsu/RealLsu.cpp:RealLsu::handle_store_addr", "back-end/Dispatch.cpp:Dispatch::comb_fire", "back-end/Exu/Csr.cpp:Csr::comb_interrupt"]}
{"id": "C75", "title": "No load is lost or reported twice in the load queue", "statement": "A load that has executed sits in exactly one valid slot of exactly one of the four index queues, the one its state calls for, or is the one in the uncached unit; the queues never overflow. In every cycle the loads that report are loads in flight, each at most once, with their own reorder-buffer index, branch mask, destination and value, and they are gone afterwards. Every other load in flight stays as the same instruction unless it is squashed, and exactly the loads dispatched and not squashed at once are new.", "quantifier": "all dispatch patterns, addresses, translation results and retries, store-check outcomes, cache answers and replays, MMIO answers, mispredictions, flushes, numbers of cycles", "why_tests_cant": "losing a load needs a particular interleaving of retries, squash and queue wrap; the symptom is a hang or a value in the wrong register much later", "anchors": ["back-end/Lsu/RealLsu.cpp:RealLsu::comb_dcache2lsu_ldq", "back-end/Lsu/RealLsu.cpp:RealLsu::comb_lsu2exe", "back-end/Lsu/RealLsu.cpp:RealLsu::handle_load_req", "back-end/Lsu/RealLsu.cpp:RealLsu::comb_tlb_in_ldq", "back-end/Lsu/RealLsu.cpp:RealLsu::comb_stlf", "back-end/Lsu/RealLsu.cpp:RealLsu::comb_flush"]}
{"id": "C76", "title": "Every load reports the value program order gives it", "statement": "The position of a load among the stores always decodes to the number of older stores still queued. If a cacheable load reports without a fault and neither it nor an older store is squashed afterwards, and the cache answers with the stores it has acknowledged (C49), the reported value is the one its bytes have in the memory made by exactly the stores older than the load, in program order, whether it was forwarded from the store queue or read from the cache, and whatever the order in which younger and older stores, retries, replays and squashes happened.", "quantifier": "all addresses, widths, data, dispatch and execution orders, translation results and retries, partial overlaps, cache answers and replays, commits, mispredictions, flushes, queue wraps, numbers of cycles", "why_tests_cant": "a stale or too-new value needs a load to be compared between the arrival of a store's address and data, or to be replayed while an older store drains; the space of interleavings is unbounded", "anchors": ["back-end/Lsu/RealLsu.cpp:RealLsu::comb_stlf", "back-end/Lsu/RealLsu.cpp:RealLsu::comb_dcache2lsu_ldq", "back-end/Lsu/RealLsu.cpp:RealLsu::comb_lsu2exe", "back-end/Lsu/RealLsu.cpp:RealLsu::handle_load_req", "back-end/Lsu/RealLsu.cpp:RealLsu::comb_flush", "back-end/Lsu/include/MemUtils.h:stq_distance_from_head_to_boundary"]}
{"id": "C77", "title": "Committed memory operations are a sequential execution", "statement": "With the reorder buffer and both sides of the load/store unit wired together: every entry of the load queue is a load in the reorder buffer that has no value yet, and no two are the same one; its position is the number of stores before it in program order; the branch and commit rules that C75 and C76 assume hold. The memory operations of the committed instructions, taken in program order, form a sequential execution: the stores are exactly the history of the store queue, and each committed cacheable load without a fault has the value its bytes have in the memory made by the stores before it. Once the store queue is drained, the data cache holds what the committed stores made. The data cache is assumed to answer with the stores it has acknowledged, and no SC, uncached or suppressed store is forwarded from (C49 and C22 show where these fail).", "quantifier": "all instruction streams, dispatch groups, execution orders, translation results, cache answers and replays, mispredictions, flushes, interrupts not hitting an unfinished store, queue and index wraps, numbers of cycles", "why_tests_cant": "a wrong value needs a particular interleaving of commits, forwarding, replays and squashes across two queues and the reorder buffer; a test sees one interleaving per program and the reference comparison sees only the registers", "anchors": ["back-end/Rob.cpp:Rob::comb_commit", "back-end/Rob.cpp:Rob::comb_complete", "back-end/Dispatch.cpp:Dispatch::comb_alloc", "back-end/Lsu/RealLsu.cpp:RealLsu::comb_lsu2exe", "back-end/Lsu/RealLsu.cpp:RealLsu::comb_stq_commit", "back-end/Lsu/RealLsu.cpp:RealLsu::comb_stlf"]}
{"id": "C78", "title": "The back-end's evaluation order hides no state", "statement": "A cycle of BackTop::comb followed by seq is a function of the inputs, the registers and three named connections left by the cycle before (the flush seen by the fetch queue, the branch broadcast seen by the load wake-up, the dispatch flags beyond the first instruction that does not fit). Every other connection between modules is driven before it is read and not driven again afterwards, and has one driving module.", "quantifier": "all behaviours of the functions that respect their reads and writes, all inputs, all leftovers, all numbers of cycles", "why_tests_cant": "a value left over from the previous cycle usually equals the fresh one, and a test cannot vary what uninitialised connections hold", "anchors": ["back-end/BackTop.cpp:BackTop::comb", "back-end/BackTop.cpp:BackTop::seq", "back-end/BackTop.cpp:BackTop::comb_lsu_mmu", "back-end/BackTop.cpp:BackTop::init"]}
{"id": "C79", "title": "Fetch resumes at the prescribed address after every flush", "statement": "When the reorder buffer flushes, fetch is redirected to the handler's address for an exception or interrupt, to mepc or sepc for a return, and to the next instruction otherwise, computed from the committing instruction's own program counter; without a flush it is redirected exactly for a mispredicted branch, to its target; and a flush and a branch redirect never coincide.", "quantifier": "all reorder buffer states, CSR states, reports and leftovers on the connections", "why_tests_cant": "needs every combination of cause, privilege, delegation and pending interrupt at the commit point", "anchors": ["back-end/BackTop.cpp:BackTop::comb", "back-end/Rob.cpp:Rob::comb_ftq_pc_req", "back-end/Rob.cpp:Rob::comb_commit", "back-end/Exu/Csr.cpp:Csr::comb_exception"]}
{"id": "C80", "title": "The committed instructions form the architectural path", "statement": "Whatever was predicted, fetched and squashed, the instructions that leave the head of the reorder buffer follow each other: the first is at the reset address, and each next one is at the architectural next address of the one before, or at the address the flush selected if the one before flushed. Between the report of a misprediction and its squash nothing of the wrong path leaves. Every redirection names an instruction in flight and carries its architectural next address; the lap flags given at dispatch order any two instructions in flight by age for as long as they are there.", "quantifier": "all programs, predictions, resolution orders, numbers of branches resolved in a cycle, wrap positions, flush and interrupt times, numbers of cycles", "why_tests_cant": "needs several mispredictions resolving in adjacent cycles around a wrap of the buffer and a simultaneous commit", "anchors": ["back-end/Rob.cpp:Rob::comb_commit", "back-end/Rob.cpp:Rob::comb_branch", "back-end/Exu/Exu.cpp:Exu::comb_fu2exu_collect", "back-end/Idu.cpp:Idu::comb_branch", "back-end/Idu.cpp:Idu::comb_fire", "back-end/BackTop.cpp:BackTop::comb"]}
{"id": "C81", "title": "The committed stream is a run of the instruction set", "statement": "Take any stretch of committed user-level integer instructions (RV32IM, the modelled B instructions, AMO, loads and stores without translation). If the renaming core, the load/store unit and the path of the reorder buffer retired the same instructions, each executed by the decoder and units as modelled on the operands it read, then the architectural states before and after the stretch - 32 registers, program counter, every byte of memory - are joined by a run of the RISC-V instruction-set machine that fetches the same words from the same memory. From reset and with the store queue drained, what the check reads as registers, the address of the next instruction and the memory are exactly those the instruction set gives. The reference simulator started at the beginning of the stretch arrives at its end.", "quantifier": "all programs, register and memory contents, run lengths, renaming, issue, completion and commit schedules, mispredictions, replays and flushes allowed by C72, C77 and C80", "why_tests_cant": "lock-step runs compare one schedule of one program; the claim joins out-of-order renaming, forwarding and squashing for every schedule", "anchors": ["back-end/Ren.cpp:Ren::comb_fire", "back-end/Prf.cpp:Prf::comb_read", "back-end/Idu.cpp:Idu::comb_decode", "back-end/Lsu/RealLsu.cpp:RealLsu::comb_lsu2exe", "back-end/Rob.cpp:Rob::comb_commit", "diff/diff.cpp:difftest_step"]}
{"id": "C82", "title": "Crossing into the faster AXI clock domain loses, repeats and misplaces no response", "statement": "The AXI subsystem makes several ticks per CPU cycle. In the extra ticks the interconnect finds neither a request nor a ready of a slow master; acceptance and ready of any tick reach the master; the data cache's ports are left alone. With an interconnect that queues responses, every response is taken exactly once and in order by a master that looks before the interconnect's outputs (instruction cache) and by one that looks after them (MMIO bridge), and no response is seen in the cycle of its request's acceptance unless the provisos below fail.", "quantifier": "all interconnect behaviours at the port, numbers of extra ticks, arrival times, ids, ready patterns", "why_tests_cant": "losing or repeating a response needs an arrival in a particular extra tick together with an acceptance in the same CPU cycle; the interconnect's latencies decide which ever occur", "anchors": ["rv_simu_mmu_v2.cpp:clear_axi_master_inputs", "rv_simu_mmu_v2.cpp:capture_axi_cpu_boundary_state", "rv_simu_mmu_v2.cpp:accumulate_axi_cpu_boundary_state", "rv_simu_mmu_v2.cpp:restore_axi_cpu_boundary_state", "rv_simu_mmu_v2.cpp:mask_axi_cpu_boundary_for_internal_tick", "rv_simu_mmu_v2.cpp:run_extra_axi_subsystem_ticks", "rv_simu_mmu_v2.cpp:SimCpu::cycle"]}
{"id": "C83", "title": "An accepted bus request is withdrawn and so performed once", "statement": "Acceptances reach the masters one CPU cycle later. In the cycle a master learns of the acceptance it no longer presents the request: miss registers, write buffer and instruction cache withdraw it; the MMIO bridge should too, so that every MMIO request over the bus is one transaction.", "quantifier": "all master states, acceptance times, request sequences, bus answers", "why_tests_cant": "MMIO addresses without a built-in device are rare, and whether a request left on the wires one cycle too long is accepted again depends on the interconnect's back-pressure", "anchors": ["MemSubSystem/PeripheralAxi.cpp:PeripheralAxi::comb_outputs", "MemSubSystem/PeripheralAxi.cpp:PeripheralAxi::comb_inputs", "MemSubSystem/MSHR.cpp:MSHR::comb_inputs_axi", "MemSubSystem/WriteBuffer.cpp:WriteBuffer::comb_inputs_axi", "front-end/icache/icache_module.cpp:ICache::eval_state_machine", "rv_simu_mmu_v2.cpp:bridge_mem_subsystem_to_axi"]}
