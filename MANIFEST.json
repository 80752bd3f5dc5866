{
 "claims": [
  {
   "property": "C01",
   "status": "proved",
   "theorems": [
    "c01_register_partition",
    "c01_spec_table_no_alias",
    "c01_destinations_fresh",
    "c01_operands_name_newest_writer",
    "c01_slots_leave_in_order",
    "c01_no_spurious_stall"
   ],
   "note": "For every history of decode, commit, misprediction and flush traffic allowed by RenSpec.traffic_ok, and for every decode/commit width."
  },
  {
   "property": "C02",
   "status": "proved",
   "theorems": [
    "c02_mispredict_recovery",
    "c02_retirement",
    "c02_flush_recovery",
    "c02_table_is_replay",
    "c02_branch_map_at_rename",
    "c02_branch_map_stable"
   ],
   "note": "Recovery after misprediction and flush, and retirement, as replay over the surviving instructions; the map restored is the one in force when the branch was renamed."
  },
  {
   "property": "C03",
   "status": "proved",
   "theorems": [
    "c03_storage_is_the_queue",
    "c03_indices_unique",
    "c03_empty_exact",
    "c03_full_exact"
   ],
   "note": "for every reachable reorder-buffer state; redirects must name an instruction in the buffer and dispatch must not fire in a mispredict cycle (what Dispatch and Exu do)"
  },
  {
   "property": "C04",
   "status": "proved",
   "theorems": [
    "c04_commits_oldest_first",
    "c04_committed_is_complete",
    "c04_special_commits_alone",
    "c04_mispredict_holds_commit",
    "c04_interrupt_exact",
    "c04_flush_and_cause",
    "c04_progress"
   ],
   "note": "for every reachable reorder-buffer state"
  },
  {
   "property": "C05",
   "status": "partial",
   "theorems": [
    "c05_fencei_sfence_wait_for_stores",
    "c05_fence_gate_has_no_effect",
    "c05_fence_waits_for_stores_refuted"
   ],
   "note": "refuted for plain FENCE (the fallback commit path ignores the gate); proved for FENCE.I and SFENCE.VMA"
  },
  {
   "property": "C06",
   "status": "proved",
   "theorems": [
    "c06_tags_distinct",
    "c06_mask_exact",
    "c06_free_exact",
    "c06_mask_selects_younger",
    "c06_mispredict_frees_younger",
    "c06_flush_frees_all",
    "c06_decode_prefix_and_stall"
   ],
   "note": "All histories with the execution stage reporting resolutions of in-flight branches only; masks as kept by downstream queues."
  },
  {
   "property": "C07",
   "status": "proved",
   "theorems": [
    "c07_fifo",
    "c07_offers_next",
    "c07_accepts_whole_block",
    "c07_ready_exact",
    "c07_flush_empties"
   ],
   "note": "All histories; decode consumes only what is offered."
  },
  {
   "property": "C08",
   "status": "proved",
   "theorems": [
    "c08_lookup",
    "c08_index_names_block",
    "c08_occupancy_exact",
    "c08_alloc_fresh",
    "c08_recover_exact",
    "c08_commit_info"
   ],
   "note": "All histories; commits are the oldest in-flight instructions in order, no commit in a misprediction cycle (c04_mispredict_holds_commit)."
  },
  {
   "property": "C09",
   "status": "proved",
   "theorems": [
    "c09_contents",
    "c09_conservation",
    "c09_issue_sound",
    "c09_one_per_port",
    "c09_no_lost_wakeup",
    "c09_free_slots_exact"
   ],
   "note": "Issue queue storage, wake matrices, scheduling, issue, enqueue, squash: one queue for every configuration, over all histories. The mux of the ten ports into FU inputs is in the execution-unit model."
  },
  {
   "property": "C10",
   "status": "proved",
   "theorems": [
    "c10_mispredict_exact",
    "c10_flush_empties",
    "c10_resolve_only_bits",
    "c10_units_mispredict_exact"
   ],
   "note": "Issue queues. The same for the operations held by the functional units."
  },
  {
   "property": "C11",
   "status": "partial",
   "theorems": [
    "c11_flush_empties_refuted",
    "c11_flush_empties_partial",
    "c11_flush_slots"
   ],
   "note": "The property is false of the code: c11_flush_empties_refuted exhibits a division that survives a flush, writes back and reports completion. Proved part: flushes empty every slot in every state, and every unit when no started multi-cycle operation has an empty branch mask."
  },
  {
   "property": "C12",
   "status": "partial",
   "theorems": [
    "c12_register_ops",
    "c12_immediate_ops",
    "c12_shift_immediates",
    "c12_unary_ops",
    "c12_lui",
    "c12_auipc",
    "c12_rotate_by_zero_refuted",
    "c12_rotate_by_zero_is_the_only_gap"
   ],
   "note": "Proved for every RV32I/Zba/Zbb/Zbc/Zbs register, immediate, shift, unary, LUI and AUIPC instruction and all operands, except rotate by a multiple of 32, where the C++ shifts by 32 (undefined behaviour): that case is the refuted theorem; c12_rotate_by_zero_is_the_only_gap shows there is no other."
  },
  {
   "property": "C13",
   "status": "proved",
   "theorems": [
    "c13_mul_div"
   ],
   "note": ""
  },
  {
   "property": "C14",
   "status": "proved",
   "theorems": [
    "c14_conditional_branch",
    "c14_jal",
    "c14_jalr"
   ],
   "note": ""
  },
  {
   "property": "C15",
   "status": "proved",
   "theorems": [
    "c15_immediates_of_every_word",
    "c15_encoded_offsets_round_trip"
   ],
   "note": ""
  },
  {
   "property": "C16",
   "status": "proved",
   "theorems": [
    "c16_comparator_is_program_order",
    "c16_oldest_wins",
    "c16_clear_exact"
   ],
   "note": "any number of branch units, any buffer size, every wrap position within one window"
  },
  {
   "property": "C17",
   "status": "proved",
   "theorems": [
    "c17_views",
    "c17_views_reset",
    "c17_csr_instruction",
    "c17_csr_address_map"
   ],
   "note": "every sequence of CSR operations, traps, returns and interrupt injections; also the full read-modify-write semantics of the six CSR instructions"
  },
  {
   "property": "C18",
   "status": "partial",
   "theorems": [
    "c18_trap_entry_partial",
    "c18_mret_inverse",
    "c18_sret_inverse",
    "c18_rob_one_event",
    "c18_trap_never_lowers_privilege_refuted",
    "c18_ecall_cause_refuted"
   ],
   "note": "entry, saved state and the two inverses for all CSR states; false for exceptions in M-mode with the delegation bit set (enters S-mode) and for M-mode ecall with medeleg[8] (cause 0)"
  },
  {
   "property": "C19",
   "status": "partial",
   "theorems": [
    "c19_request_partial",
    "c19_taken_partial",
    "c19_exception_vector_partial",
    "c19_request_refuted",
    "c19_priority_refuted",
    "c19_priority_s_refuted",
    "c19_exception_vector_refuted",
    "c19_machine_lines_exact"
   ],
   "note": "exact under the usual delegation and outside the two wrong priority pairs; undelegated supervisor interrupts, two priority orders and the vectored-mode exception address are wrong (refuted theorems)"
  },
  {
   "property": "C20",
   "status": "partial",
   "theorems": [
    "c20_commit_own_write_partial",
    "c20_squashed_write_refuted"
   ],
   "note": "a commit performs exactly its own write unless a read-only CSR instruction follows a squashed writing one; that case performs the squashed write (refuted)"
  },
  {
   "property": "C21",
   "status": "partial",
   "theorems": [
    "c21_check_exact",
    "c21_scan_exact",
    "c21_wait_has_reason",
    "c21_top_of_memory_refuted"
   ],
   "note": "Holds for the classification and the scan over the older stores for accesses that do not touch the last byte of the address space; refuted at the top of the address space (end addresses wrap)."
  },
  {
   "property": "C22",
   "status": "partial",
   "theorems": [
    "c22_failed_sc_never_written",
    "c22_failed_sc_not_forwarded_refuted"
   ],
   "note": "Memory side proved over all executions (a failed SC is never sent to the cache); refuted for forwarding: a younger load takes the data of a failed SC from the store queue."
  },
  {
   "property": "C23",
   "status": "proved",
   "theorems": [
    "c23_store_exact",
    "c23_load_exact",
    "c23_store_then_load",
    "c23_load_elsewhere"
   ],
   "note": "Naturally aligned accesses of every size, all addresses, data and memory contents. Alignment is needed (c23_misaligned_word_ex)."
  },
  {
   "property": "C24",
   "status": "proved",
   "theorems": [
    "c24_store_queue_in_order",
    "c24_effects_in_program_order",
    "c24_drained_memory",
    "c24_only_committed_sent",
    "c24_overlap_check_exact",
    "c24_boundary_exact"
   ],
   "note": "For every execution of the modelled load/store unit (LsuModel.v, all of RealLsu.cpp's store path) under the stated assumptions on its surroundings (senv): queue contents and order, slots and wrap flags, exact effect of commit, misprediction, flush and mask clearing (gstep/squash), only committed stores in flight, and memory equals program order."
  },
  {
   "property": "C25",
   "status": "proved",
   "theorems": [
    "c25_req_id_roundtrip",
    "c25_req_id_injective",
    "c25_no_stale_answer",
    "c25_value_kept",
    "c25_told_to_retry"
   ],
   "note": "Identifiers round-trip and are unique; over all runs every answer of the data cache meets the load that asked, at its own address, and the value reaches the back end or is kept. Assumes (LdqMain.lenv) that the cache answers every load request in the next cycle on its port, which c56_lsu_load_answered proves of the memory subsystem model."
  },
  {
   "property": "C26",
   "status": "proved",
   "theorems": [
    "c26_decode_exact",
    "c26_encode_exact",
    "c26_victim_exact",
    "c26_empty_way_first",
    "c26_last_touched_kept"
   ],
   "note": "address fields and recombination are inverse; the tree victim equals the history specification, empty ways first, last touched way never"
  },
  {
   "property": "C27",
   "status": "proved",
   "theorems": [
    "c27_one_entry_per_line",
    "c27_count_exact",
    "c27_merged_stores_exact",
    "c27_requested_once",
    "c51_cached_line_exact"
   ],
   "note": "over every tick sequence of the whole cache domain against any conforming memory; the installed line is c51_cached_line_exact"
  },
  {
   "property": "C28",
   "status": "proved",
   "theorems": [
    "c28_entries_exact",
    "c28_oldest_first",
    "c28_queue_exact",
    "c28_one_place",
    "c49_stage2_load_current",
    "c51_absent_line_in_memory"
   ],
   "note": "over every tick sequence; the bypass value is c49_stage2_load_current, and that nothing is dropped is c51_absent_line_in_memory"
  },
  {
   "property": "C29",
   "status": "partial",
   "theorems": [
    "c29_walk_exact",
    "c29_walk_static",
    "c29_reads_prescribed",
    "c29_answer_taken_once",
    "c29_pending_begins",
    "c29_alternates",
    "c29_wait_not_forgotten",
    "c29_wait_has_cause",
    "c29_read_passed_on",
    "c29_private_walker_exact",
    "c29_private_walker_ends",
    "c29_reserved_bits_refuted",
    "c29_high_tables_refuted"
   ],
   "note": "Exactness, prescribed reads, single answers, alternation and never-forgotten waits are proved for the shared walker behind the routing block and data cache, and exactness and termination for the private walker. Refuted parts: reserved bits of pointer entries are not checked, and table addresses are cut to 32 bits. Missing: an unconditional bound on the time the shared walker takes, which depends on main memory."
  },
  {
   "property": "C30",
   "status": "partial",
   "theorems": [
    "c30_answers_come_from_walks",
    "c30_same_as_fresh_walk",
    "c30_tables_unchanged",
    "c30_tables_settled",
    "c30_asks_when_ready",
    "c30_walk_never_lost",
    "c30_flush_empties",
    "c30_fetch_answered",
    "c30_access_answered",
    "c30_status_fields",
    "c30_high_pages_refuted"
   ],
   "note": "Proved for both TLBs composed with the shared walker, routing block and data cache over whole cycles. Refuted part: physical addresses beyond 4 GiB are cut to 32 bits. Missing: an unconditional time bound for a translation, which depends on main memory."
  },
  {
   "property": "C31",
   "status": "proved",
   "theorems": [
    "c31_roundtrip",
    "c31_response_kept",
    "c31_widths",
    "c31_slots_fit",
    "c31_core_exact",
    "c31_call_exact",
    "c31_control_exact",
    "c31_cycles_same",
    "c31_registers_fit",
    "c31_mapper_exact",
    "c31_match_split",
    "c31_generators",
    "c31_wired_exact",
    "c31_control_trace_refuted"
   ],
   "note": "Round trips for every record, widths, packed calls equal direct ones (single calls and every cycle of every run), output mapper and small generators equal the whole; the wiring of the pieces is not in the repository and is stated in TlbBits.v. One refuted corner: on a flush or cancellation the packed call's idle ports carry trace source 7 and level 0 instead of 0 and 0xff (nobody reads them)."
  },
  {
   "property": "C32",
   "status": "proved",
   "theorems": [
    "c32_word_map",
    "c32_index_in_bounds",
    "c32_io_map_canonical",
    "c32_memcpy_exact",
    "c32_memcpy_aborts"
   ],
   "note": "RAM array plus sparse map = one word map over all write sequences; indices in bounds; memcpy exact or abort"
  },
  {
   "property": "C33",
   "status": "proved",
   "theorems": [
    "c33_timer_exact",
    "c46_lines_exact"
   ],
   "note": "four timer registers and the level against a 64-bit abstract timer over all event sequences; sim_time below 2^63"
  },
  {
   "property": "C34",
   "status": "proved",
   "theorems": [
    "c34_dma_exact"
   ],
   "note": "memmove on every byte, status, interrupt and sync notification; the claim word is excluded from the frame because a completed transfer with interrupts enabled rewrites it"
  },
  {
   "property": "C35",
   "status": "partial",
   "theorems": [
    "c35_reference_translation_partial",
    "c35_core_agrees_partial",
    "c35_fix_grants_only_translations",
    "c35_core_faults_adopted",
    "c35_missing_faults_stop",
    "c35_superpage_fetch_refuted"
   ],
   "note": "Under paging and below machine mode the reference's translation is the Sv32 walk and permission check, except a supervisor fetch of a user superpage page with SUM (refuted there) and the 34-bit physical address, cut to 32 bits in both; every non-retry TLB answer over unchanged tables is the reference's; the adoption of core faults is exact. Partial: the fetch exception above and effective privilege M are outside."
  },
  {
   "property": "C36",
   "status": "partial",
   "theorems": [
    "c36_same_csr_instruction_partial",
    "c36_decoded_fields",
    "c36_unknown_csr",
    "c36_reference_csr_instruction_partial",
    "c36_csr_writes_refuted",
    "c36_timer_shown"
   ],
   "note": "Every CSR instruction except accesses to mip and sip, csrrwi with immediate 0 and reserved funct3 leaves reference and core with the same registers, privilege and destination value, and the reference's values are those of the privileged architecture; unknown registers are ignored and time/timeh illegal in both; mip of the reference shows the timer bit and sip the supervisor and user bits of mip. Refuted in each excluded case."
  },
  {
   "property": "C37",
   "status": "partial",
   "theorems": [
    "c37_device_effects_partial",
    "c37_store_acts_once",
    "c37_device_effects_refuted"
   ],
   "note": "Every device side effect of a call of exec is that of the store the fetched instruction performs, and every aligned non-trapping store acts exactly once; refuted for load-reserved (repeats the last device store) and failed store-conditional (acts although nothing is stored)."
  },
  {
   "property": "C38",
   "status": "proved",
   "theorems": [
    "c38_queue_exact",
    "c38_queue_lossless",
    "c38_never_exits",
    "c38_blocks_follow",
    "c38_blocks_genuine",
    "c38_queues_agree",
    "c38_no_response_dropped"
   ],
   "note": "Per queue for every control pattern and over every control sequence; whole front end over all executions under the instruction-cache contract stated in DESIGN.md."
  },
  {
   "property": "C39",
   "status": "proved",
   "theorems": [
    "c39_predecode_exact",
    "c39_checker_exact",
    "c39_plain_block",
    "c39_jump_block"
   ],
   "note": ""
  },
  {
   "property": "C40",
   "status": "proved",
   "theorems": [
    "c40_prefix",
    "c40_gates",
    "c40_serialised",
    "c40_queue_requests_exact",
    "c40_dispatched_fields",
    "c40_stq_allocation",
    "c40_ldq_allocation",
    "c40_load_store_boundary",
    "c40_ready_bits_exact",
    "c40_exactly_once_in_order",
    "c40_ready_iff_drained",
    "c40_expected_completions",
    "c40_no_needless_stall"
   ],
   "note": "Model of Dispatch.cpp comb_alloc/comb_wake/comb_dispatch/comb_fire/comb_pipeline/decompose_inst over any held pair, resource levels, stale success flags and inputs. Prefix firing, gating, serialisation, per-queue requests exactly one micro-operation per needing instruction with its fields, LSU allocation, exact ready bits against the register history, exactly-once in-order hand-over, completion masks, and no stall without a missing resource."
  },
  {
   "property": "C41",
   "status": "partial",
   "theorems": [
    "c41_read_newest",
    "c41_bypass_wins",
    "c41_no_gap",
    "c41_squashed_invisible",
    "c41_load_wake_readable",
    "c41_load_announced",
    "c41_squashed_load_announced",
    "c41_zero_partial",
    "c41_zero_refuted"
   ],
   "note": "value read = first bypass, else newest surviving write-back, for every write-back history and port count; no gap between latch and array; load wake-ups: every surviving load is announced although the broadcast read is a cycle old, and a load squashed in the same cycle is announced too; register zero is not always zero: a load to x0 writes back with dest_en set and register 0, and is read for one cycle (c41_zero_refuted)"
  },
  {
   "property": "C42",
   "status": "partial",
   "theorems": [
    "c42_wake_sound",
    "c42_wake_complete_partial",
    "c42_fast_exact",
    "c42_wake_then_bypass",
    "c42_mul_never_lost",
    "c42_port0_latencies_agree",
    "c42_port1_latencies_agree",
    "c42_wake_complete_refuted"
   ],
   "note": "every announced register is readable on the bypass network the next cycle and every surviving multi-cycle result is announced, for every history of one port with the configured units; full completeness is false: an FP operation issued 13 cycles after a DIV overwrites the DIV's announcement (c42_wake_complete_refuted); load wake-ups are in C41"
  },
  {
   "property": "C43",
   "status": "proved",
   "theorems": [
    "c43_load_address",
    "c43_store_address_and_data",
    "c43_amo",
    "c43_lr",
    "c43_sc"
   ],
   "note": ""
  },
  {
   "property": "C44",
   "status": "proved",
   "theorems": [
    "c44_exactly_once",
    "c44_contents",
    "c44_bypass_exact",
    "c44_delivers",
    "c44_pipelined_on_time",
    "c44_ready_exact",
    "c44_exactly_once_refuted"
   ],
   "note": "Exact delivery, latency, arbitration and readiness per port, for runs in which no flush finds a started multi-cycle operation with an empty branch mask; c44_exactly_once_refuted shows the restriction is needed (the flush-mask comparison is never true)."
  },
  {
   "property": "C45",
   "status": "partial",
   "theorems": [
    "c45_privilege_change_events",
    "c45_user_escalation_refuted"
   ],
   "note": "privilege changes only at reported traps and returns; user code can escalate because neither mret nor CSR access is checked (refuted)"
  },
  {
   "property": "C46",
   "status": "proved",
   "theorems": [
    "c46_device_refines",
    "c46_lines_exact",
    "c46_device_load_exact"
   ],
   "note": "refinement over all event sequences; stores aligned, pointers bound"
  },
  {
   "property": "C47",
   "status": "partial",
   "theorems": [
    "c47_narrow_access_refuted"
   ],
   "note": "refuted: register paths ignore the access width; the byte-addressed part does hold (c46_device_load_exact, c46_device_refines)"
  },
  {
   "property": "C48",
   "status": "partial",
   "theorems": [
    "c48_undiverted_devices"
   ],
   "note": "the property does not hold; the theorem gives the exact set of device addresses that are treated as cacheable"
  },
  {
   "property": "C49",
   "status": "partial",
   "theorems": [
    "c49_stage2_load_current",
    "c49_published_load_partial",
    "c49_published_load_current",
    "c49_load_current_refuted"
   ],
   "note": "holds unless the line is waiting in the fill register; there it is refuted: an acknowledged store is invisible to a later load while the write buffer is full"
  },
  {
   "property": "C50",
   "status": "proved",
   "theorems": [
    "c50_one_answer",
    "c50_stores_once"
   ],
   "note": "for one main tick, any positive number of fast ticks and the publishing tick, any memory behaviour"
  },
  {
   "property": "C51",
   "status": "proved",
   "theorems": [
    "c51_absent_line_in_memory",
    "c51_drained_memory",
    "c51_cached_line_exact"
   ],
   "note": "over every tick sequence"
  },
  {
   "property": "C52",
   "status": "proved",
   "theorems": [
    "c52_fetch_answer",
    "c52_fetch_words",
    "c52_fetch_group"
   ],
   "note": "For any predicate P describing what reads and probes may return.  Relies on IcSpec.env_ok."
  },
  {
   "property": "C53",
   "status": "proved",
   "theorems": [
    "c53_answer_only_asked",
    "c53_ids_exact",
    "c53_offer_exact",
    "c53_answer_taken",
    "c53_redirect_ends_service",
    "c53_separation_needed"
   ],
   "note": "c53_separation_needed shows why acceptance and answer must be seen in different cycles (the code ensures it at the CPU/AXI boundary)."
  },
  {
   "property": "C54",
   "status": "proved",
   "theorems": [
    "c54_fetch_answered",
    "c54_cycle_progress"
   ],
   "note": ""
  },
  {
   "property": "C55",
   "status": "proved",
   "theorems": [
    "c55_fence_i"
   ],
   "note": "About the instruction cache alone; whether the data cache and memory return current words is C49/C51 and the route between them."
  },
  {
   "property": "C56",
   "status": "proved",
   "theorems": [
    "c56_lsu_load_answered"
   ],
   "note": "Model RtModel/RtSpec over whole CPU cycles. word_since: the program's view at some point since the cycle before; if the line was in a miss register then, possibly an earlier view (C49)."
  },
  {
   "property": "C57",
   "status": "partial",
   "theorems": [
    "c57_served_exact",
    "c57_probe_answered",
    "c57_read_answered",
    "c57_event_exact",
    "c57_wake_exact",
    "c57_walk_not_forgotten",
    "c57_wait_has_cause",
    "c57_probe_within_two",
    "c57_walk_within_three",
    "c57_wait_forgotten_refuted"
   ],
   "note": "The walker (the only live page-table reader) is never forgotten; with several readers one wait register serves all and a wake-up can be lost (refuted)."
  },
  {
   "property": "C58",
   "status": "partial",
   "theorems": [
    "c58_probe_contract",
    "c58_fetch_sources_partial",
    "c58_clean_line_coherent",
    "c58_store_then_fence_refuted",
    "c58_probe_conflict_refuted"
   ],
   "note": "False in general: an acknowledged store waiting in a miss register, or a probe turned away by a bank conflict, lets a fetch after fence.i return the old word from main memory. Proved: where words may come from, coherence of written-back lines, and that the route block and data cache meet the probe assumptions of C52-C55."
  },
  {
   "property": "C59",
   "status": "partial",
   "theorems": [
    "c59_one_instruction",
    "c59_programs",
    "c59_core_writes_the_same",
    "c59_core_goes_the_same_way",
    "c59_reserved_encodings_refuted"
   ],
   "note": "Every program of RV32I/M/B integer, load, store and AMO instructions without LR/SC, devices, interrupts or paging runs in the reference exactly as in the small machine of RefSpec; every integer instruction word that encodes an instruction gives the core's register result, and branches and jumps go the same way. Refuted for reserved encodings, which the two treat differently."
  },
  {
   "property": "C60",
   "status": "partial",
   "theorems": [
    "c60_same_trap",
    "c60_interrupt_same_trap",
    "c60_ecall_same_trap",
    "c60_return_same",
    "c60_fetch_fault_same_trap_partial",
    "c60_access_fault_same_trap",
    "c60_illegal_same_trap",
    "c60_traps_refuted"
   ],
   "note": "From equal registers, an interrupt (not at ecall), ecall, mret, sret, load/store fault, illegal time read (not delegated) and fetch fault (no stale ecall or interrupt) give the same registers, privilege and next pc in both, trap vectors aligned. Refuted: interrupt pending at ecall, delegated illegal instruction, exception in vectored mode, fetch fault after ecall."
  },
  {
   "property": "C61",
   "status": "partial",
   "theorems": [
    "c61_served_in_order",
    "c61_bus_transactions",
    "c61_request_held",
    "c61_answered",
    "c61_own_answer_partial",
    "c61_store_performed",
    "c61_own_answer_refuted",
    "c61_squashed_refuted"
   ],
   "note": "Bridge alone: order, data, bus transactions, stability and progress proved. Behind the LSU own answers and single bus writes are proved when the loads go to built-in devices, assuming a unit freed or squashed in a cycle is not refilled in it and a committed store is not squashed; for loads over the bus the statement is refuted."
  },
  {
   "property": "C62",
   "status": "partial",
   "theorems": [
    "c62_directions",
    "c62_folds",
    "c62_fold_determined",
    "c62_path",
    "c62_redirected",
    "c62_stacks",
    "c62_innermost_calls",
    "c62_requests",
    "c62_prediction",
    "c62_front_same",
    "c62_path_history_refuted",
    "c62_redirect_loses_calls_refuted",
    "c62_indirect_call_refuted",
    "c62_top_block_unpredicted"
   ],
   "note": "Histories, folds, path, stacks, requests and next address proved for all executions. Refuted: the speculative state is not that of the fetched path after redirections; indirect calls unbalance the stack. Missing: nothing is claimed about prediction accuracy."
  },
  {
   "property": "C63",
   "status": "proved",
   "theorems": [
    "c63_trained_in_order",
    "c63_directions_trained",
    "c63_trained_soon",
    "c63_no_overflow",
    "c63_rob_heeds",
    "c63_heeding_needed"
   ],
   "note": "One FIFO per bank; the assert of the queue is unreachable when at most one instruction commits in a cycle after the full signal, which the ROB model does."
  },
  {
   "property": "C64",
   "status": "partial",
   "theorems": [
    "c64_ranges",
    "c64_lfsr_alive",
    "c64_provider",
    "c64_direction",
    "c64_written",
    "c64_trained",
    "c64_learns",
    "c64_tag_origin",
    "c64_empty_entry_refuted",
    "c64_corrector_inert",
    "c64_loop_shipped_refuted",
    "c64_loop_counts",
    "c64_loop_exit_refuted",
    "c64_weak_choice",
    "c64_loop_used",
    "c64_choice_trained",
    "c64_usefulness",
    "c64_stale_useful_refuted",
    "c64_core_loop_dead_refuted"
   ],
   "note": "Ranges, provider, direction, frame and step of a training, replacement and learning are proved for all states. That matching entries were trained, that the correctors act and that the loop predictor finds the exit are refuted with witnesses. One bank alone: that trainings bring back an earlier answer is a hypothesis of the reachable states. A useful bit that has gone stale survives 2^23 trainings (refuted that it fades sooner), and the shipped loop predictor speaks only for branches with index 0 and tag 0."
  },
  {
   "property": "C65",
   "status": "partial",
   "theorems": [
    "c65_origin",
    "c65_one_entry",
    "c65_frame",
    "c65_learned",
    "c65_exact",
    "c65_confident",
    "c65_same_cycle_lost_refuted",
    "c65_last_word_refuted",
    "c65_counters",
    "c65_evicted"
   ],
   "note": "All parts proved except that same-cycle updates act one after the other and that the last word counts: both are refuted by reachable runs. Age and confidence are always equal, and the less sure entry of a full set is the one evicted."
  },
  {
   "property": "C66",
   "status": "partial",
   "theorems": [
    "c66_direct_origin",
    "c66_direct_exact",
    "c66_learned",
    "c66_told_apart",
    "c66_ranges",
    "c66_evicted",
    "c66_indirect_origin",
    "c66_indirect_again",
    "c66_one_target",
    "c66_one_target_later",
    "c66_choice",
    "c66_fallthrough_refuted",
    "c66_history_forgets_refuted",
    "c66_alternating_refuted",
    "c66_cache_told_apart",
    "c66_history_told_apart",
    "c66_sets_used_refuted"
   ],
   "note": "One bank. The fall-back address is a quarter of the intended one, the history never forgets a difference, and an alternating jump is mispredicted for ever: all three refuted for all inputs of their kind; the rest is proved. Which histories share a set of the target cache is exact; a jump can use only 16 of the 64 sets."
  },
  {
   "property": "C67",
   "status": "partial",
   "theorems": [
    "c67_where",
    "c67_direct",
    "c67_followed",
    "c67_first_taken_refuted",
    "c67_own_entry"
   ],
   "note": "Directions of the TAGE banks are arbitrary inputs. A branch predicted taken that was never taken before is fetched from a quarter of its address: refuted for all such states."
  },
  {
   "property": "C68",
   "status": "partial",
   "theorems": [
    "c68_computes",
    "c68_reference_agrees",
    "c68_never_illegal",
    "c68_aborts_exactly",
    "c68_formats_refuted",
    "c68_reserved_rounding_refuted",
    "c68_fused_refuted",
    "c68_latency",
    "c68_latency_agrees"
   ],
   "note": "Complete for defined words (values and agreement with the reference). Partial because agreement on other words is refuted: double/half/quad forms are executed as single precision, reserved rounding modes 5 and 6 go to softfloat, fused multiply-adds are illegal only in the core, and undefined FP words fail an assert of the simulator instead of raising an illegal-instruction trap."
  },
  {
   "property": "C69",
   "status": "partial",
   "theorems": [
    "c69_add_nan",
    "c69_add_inf",
    "c69_add_zero",
    "c69_add_zeros",
    "c69_add_cancel",
    "c69_add_double",
    "c69_add_negate",
    "c69_add_dynamic_refuted",
    "c69_add_quiet_refuted",
    "c69_mul_nan",
    "c69_mul_inf_zero",
    "c69_mul_inf",
    "c69_mul_zero",
    "c69_mul_sign",
    "c69_mul_magnitude",
    "c69_mul_one",
    "c69_mul_modes",
    "c69_mul_dynamic_refuted",
    "c69_mul_flags_refuted",
    "c69_rtl_unit",
    "c69_rtl_sub_self"
   ],
   "note": "Proved for the special operands and the algebraic laws listed, for all operands; the rounding of a general sum or product is not proved. The flag and dynamic-mode parts are refuted."
  },
  {
   "property": "C70",
   "status": "proved",
   "theorems": [
    "c70_loads",
    "c70_none_left",
    "c70_reservation",
    "c70_stores",
    "c70_lists"
   ],
   "note": "Loads, reservation and the end of the whole cycle for every state and input; stores for queues whose masks grow with age (c24's invariant), waiting lists for well-formed queues. A flush does not clear the reservation: c70_reservation says so."
  },
  {
   "property": "C71",
   "status": "partial",
   "theorems": [
    "c71_check_exact",
    "c71_when_resynced",
    "c71_lockstep",
    "c71_core_follows_isa",
    "c71_store_agrees",
    "c71_resync",
    "c71_privilege_refuted",
    "c71_core_sip_refuted",
    "c71_extra_store_refuted",
    "c71_store_width_refuted",
    "c71_faults_believed_refuted",
    "c71_stale_instruction_refuted",
    "c71_reservation_lost_refuted"
   ],
   "note": "Proved for commits without resynchronisation and for what a resynchronisation hands over. Refuted: privilege, the core's sip, extra stores and store widths are not compared; reported page faults are believed; the reservation is lost at a resynchronisation (false alarm); a fetch fault after a mip/sip access can be a false alarm. The reference is the model of ref.cpp, not the linked library."
  },
  {
   "property": "C72",
   "status": "partial",
   "theorems": [
    "c72_operands",
    "c72_results",
    "c72_captured",
    "c72_checked_registers",
    "c72_registers",
    "c72_zero",
    "c72_load_x0_refuted"
   ],
   "note": "The schedule is an input restricted by OooSpec.cycle_with: when issue, execution and retirement keep those rules is C04, C06, C09, C16, C40, C42 and C44, which are proved on their own models and not joined into one state. Memory data are part of the function an instruction computes. With the rule as the load unit really drives it (a load to x0 drives register 0) the statement is false: c72_load_x0_refuted."
  },
  {
   "property": "C73",
   "status": "partial",
   "theorems": [
    "c73_exactly_once",
    "c73_stream_is_a_path",
    "c73_decoded_follows",
    "c73_genuine",
    "c73_lookup_names_successor",
    "c73_confirmed",
    "c73_never_exits",
    "c73_misaligned_refuted"
   ],
   "note": "The path theorems need the cache contract of C52 (words up to the end of the 64-byte line) and addresses that are multiples of 4; c73_misaligned_refuted shows the second is needed. Instruction cache and predictor are inputs; execution and commit obey PreIduSpec.env_ok. The CONFIG_BPU build without the oracle is modelled."
  },
  {
   "property": "C74",
   "status": "partial",
   "theorems": [
    "c74_stores_in_step_partial",
    "c74_committed_stores_taken_partial",
    "c74_run_of_the_store_queue_partial",
    "c74_reports_name_stores_partial",
    "c74_interrupt_on_unfinished_store",
    "c74_interrupt_refuted"
   ],
   "note": "Reorder buffer and store side of the load/store unit joined over all runs, under RlModel.jenv_of (dispatch, branch masks and translation as assumptions; an SC is assumed to share its index with no load; the load queue is not joined). With interrupts not gated, which is what the code does, the property is refuted."
  },
  {
   "property": "C75",
   "status": "proved",
   "theorems": [
    "c75_one_place",
    "c75_room",
    "c75_cycle"
   ],
   "note": "Over all runs of the load/store unit under LdqMain.lenv (answers of the cache as proved in C56; dispatch uses the offered indices once; a load executes once in its entry; translations answer requests of the cycle)."
  },
  {
   "property": "C76",
   "status": "proved",
   "theorems": [
    "c76_boundary_decodes",
    "c76_reported_value"
   ],
   "note": "assumes in-order commit, that a hit answers with the memory of acknowledged stores plus some in flight, and that no load overlaps an older queued store-conditional, uncached or suppressed store (C22); loads are naturally aligned"
  },
  {
   "property": "C77",
   "status": "proved",
   "theorems": [
    "c77_runs",
    "c77_loads_in_step",
    "c77_committed_load",
    "c77_sequential",
    "c77_final_memory"
   ],
   "note": "Theorems hold for every joint run (kreach/treach, LcModel.v). Environment: dispatch gives both sides the same instructions, requests carry what dispatch gave, a misprediction hits exactly the younger loads, the cache answers from the acknowledged stores, no SC/uncached/suppressed store is forwarded from (the last two are refuted for parts of the code by C49 and C22). Interrupts on an unfinished store are excluded (refuted in C74). Values of uncached loads are not stated."
  },
  {
   "property": "C78",
   "status": "proved",
   "theorems": [
    "c78_one_cycle",
    "c78_deterministic",
    "c78_clear_harmless",
    "c78_settled",
    "c78_one_driver",
    "c78_carried_needed"
   ],
   "note": "The reads and writes of each function are a table made by reading the code (BtModel); statistics and debug output are left out."
  },
  {
   "property": "C79",
   "status": "partial",
   "theorems": [
    "c79_pc_is_own",
    "c79_branch",
    "c79_exception_partial",
    "c79_interrupt_partial",
    "c79_return",
    "c79_next",
    "c79_no_leftovers"
   ],
   "note": "Exceptions with direct-mode vectors and the delegations for which C18 holds; interrupts under the conditions of C19 (both are wrong elsewhere, see there)."
  },
  {
   "property": "C80",
   "status": "proved",
   "theorems": [
    "c80_redirect_in_flight",
    "c80_flags_give_age",
    "c80_committed_path",
    "c80_successor_in_flight"
   ],
   "note": "Joined model of reorder buffer, branch arbitration, redirect latch and fetch point; the rest of the core appears as the rules penv, each taken from C09, C10, C14, C40, C44, C73 or C79. Discharges for the reorder buffer that a redirect names an instruction in flight."
  },
  {
   "property": "C81",
   "status": "proved",
   "theorems": [
    "c81_isa_run",
    "c81_reference_agrees",
    "c81_program"
   ],
   "note": "Trace-level join of C72, C77, C80 with C12-C14, C43 and C59. Premises: the three logs are of the same instructions and units act as in ExecModel (does, ran); no translation, traps, CSR instructions, LR/SC or devices inside a stretch; instruction words are in memory."
  },
  {
   "property": "C82",
   "status": "partial",
   "theorems": [
    "c82_invisible",
    "c82_fast_untouched",
    "c82_heard",
    "c82_early_once",
    "c82_late_once",
    "c82_separated",
    "c82_visible",
    "c82_write_separated",
    "c82_eager_refuted",
    "c82_two_accepts_refuted",
    "c82_write_id_refuted",
    "c82_reuse_refuted",
    "c82_icache_eager"
   ],
   "note": "Boundary functions of rv_simu_mmu_v2.cpp as they are; the interconnect, not in the repository, is arbitrary at the port for the first three theorems and a response queue for the others. Provisos, each shown necessary by a refuted theorem: a master that looks early is ready only for what it sees if the interconnect pops by its own record (c82_eager_refuted; the instruction cache violates it in CANCEL_WAIT_ACCEPT, c82_icache_eager: its response would be lost and the id leaked); one acceptance per CPU cycle (c82_two_accepts_refuted: only the last id is noted); id 0 on write ports (c82_write_id_refuted: the noted id is read from wires the mask has cleared); a late master has no request accepted under the id it takes (c82_reuse_refuted)."
  },
  {
   "property": "C83",
   "status": "partial",
   "theorems": [
    "c83_mshr_withdraws",
    "c83_wb_withdraws",
    "c83_icache_withdraws",
    "c83_store_twice_refuted",
    "c83_stale_load_refuted",
    "c83_mmio_once_partial"
   ],
   "note": "Proved for miss registers, write buffer and instruction cache. False for the MMIO bridge: PeripheralAxi::comb_outputs runs before comb_inputs has seen the acceptance and nothing retracts the request, unlike MSHR.cpp:248-254 and WriteBuffer.cpp:122-131, so the request is on the wires one CPU cycle after its acceptance. An interconnect that accepts again performs a store twice (c83_store_twice_refuted) and answers the next load with the word of the previous one (c83_stale_load_refuted). With an interconnect that pauses for a CPU cycle after an acceptance every request is one transaction (c83_mmio_once_partial); missing: that it pauses, its code is not in the repository."
  }
 ]
}
