{
 "claims": [
  {
   "property": "C01",
   "status": "proved",
   "theorems": [
    "csr_read_after_history",
    "csr_contents_after_history",
    "csr_instruction_path",
    "csr_narrow_access_refuted"
   ],
   "note": "Full-width accesses proved for all histories; csr_narrow_access_refuted records that a 32-bit access to a 64-bit CSR clears unwritable upper bits."
  },
  {
   "property": "C02",
   "status": "proved",
   "theorems": [
    "csr_table_refines",
    "csr_table_no_undefined",
    "csr_table_name_index_agree"
   ],
   "note": ""
  },
  {
   "property": "C03",
   "status": "proved",
   "theorems": [
    "shadow_history",
    "shadow_empty_mask_noop"
   ],
   "note": ""
  },
  {
   "property": "C04",
   "status": "proved",
   "theorems": [
    "mstatus_fields_refine",
    "mstatus_getter_layout",
    "mstatus_staging_invisible",
    "mstatus_reserved_bits_kept_partial",
    "mstatus_xl_kept",
    "mstatus_write32_keeps_sd_refuted"
   ],
   "note": "Field behaviour proved for every history of setters, Submit and 32/64-bit word accesses; additionally the read-only SD bit is lost by 32-bit word writes."
  },
  {
   "property": "C05",
   "status": "partial",
   "theorems": [
    "sstatus_write_effect",
    "sstatus_write_stages_nothing",
    "sstatus_read_visible_partial",
    "sstatus_read_hides_machine_bits_refuted"
   ],
   "note": "Write half proved; read half is false of the code: AsUint64 returns mstatus unmasked."
  },
  {
   "property": "C06",
   "status": "partial",
   "theorems": [
    "sip_write_sets_partial",
    "sie_write_sets_partial",
    "mie_word_effect",
    "sip_write_clears_refuted",
    "sie_write_clears_refuted",
    "sip_write_preserves_machine_refuted"
   ],
   "note": "The code lacks a complement in sip/sie Set: bits cannot be cleared and undelegated machine bits are destroyed."
  },
  {
   "property": "C07",
   "status": "partial",
   "theorems": [
    "mip_bits_history_partial",
    "mip_seip_quiet_history_partial",
    "mip_seip_never_lost_partial",
    "mip_line_separation_refuted"
   ],
   "note": "Read-modify-write of mip copies the external line into the stored SEIP bit."
  },
  {
   "property": "C08",
   "status": "proved",
   "theorems": [
    "counters_refine",
    "event_counter_only_events",
    "performance_counter_law"
   ],
   "note": ""
  },
  {
   "property": "C09",
   "status": "partial",
   "theorems": [
    "counter_pair_high_writes_partial",
    "counter_pair_low_then_high_partial",
    "counter_pair_low_write_partial",
    "performance_pair_high_write_partial",
    "counter_pair_low_write_disturbs_high_refuted",
    "counter_pair_high_then_low_refuted",
    "trap_keeps_minstreth_refuted"
   ],
   "note": "Low writes move the high half by the carry; a trap on RV32 bumps minstreth."
  },
  {
   "property": "C10",
   "status": "partial",
   "theorems": [
    "hart_histories_defined",
    "trap_entry_partial",
    "trap_user_delegated_refuted"
   ],
   "note": "All trap entries except interrupts delegated to user level, which the code drops silently (refuted)."
  },
  {
   "property": "C100",
   "status": "partial",
   "theorems": [
    "simmode_history_partial",
    "simmode_debugger_refuted",
    "simmode_reserved_refuted"
   ],
   "note": "Proved for all histories in which the debugger writes values of two bits: mode and readings. Refuted: the debugger can make any 64-bit number the mode, which then reads differently; the reserved mode 2 is accepted by every kind of access."
  },
  {
   "property": "C11",
   "status": "partial",
   "theorems": [
    "exception_never_lowers",
    "take_after_check_partial",
    "take_lowers_privilege_refuted"
   ],
   "note": "Exceptions never lower privilege; interrupts taken right after the check that offered them neither. A stale offer can be taken in a higher mode (refuted)."
  },
  {
   "property": "C12",
   "status": "partial",
   "theorems": [
    "trap_pc_partial",
    "exception_vectored_refuted"
   ],
   "note": "Interrupts always, exceptions when tvec is not in vectored mode. The code also vectors exceptions (refuted)."
  },
  {
   "property": "C13",
   "status": "proved",
   "theorems": [
    "nested_traps_restore",
    "mret_after_trap",
    "sret_after_trap"
   ],
   "note": "Trees of nested traps of any depth; handlers save and restore xepc and xstatus; TSR clear."
  },
  {
   "property": "C14",
   "status": "partial",
   "theorems": [
    "mret_needs_m",
    "sret_needs_s",
    "mret_effect",
    "sret_effect_partial",
    "sret_in_m_refuted"
   ],
   "note": "sret in M mode traps on RV32, and on RV64 with TSR set (refuted)."
  },
  {
   "property": "C15",
   "status": "proved",
   "theorems": [
    "check_offers_best",
    "check_upgrades_offer",
    "check_changes_only_offer"
   ],
   "note": ""
  },
  {
   "property": "C16",
   "status": "partial",
   "theorems": [
    "take_after_check_partial",
    "take_not_pending_refuted"
   ],
   "note": "An offer is not withdrawn when the pending bit falls before the take point (refuted)."
  },
  {
   "property": "C17",
   "status": "proved",
   "theorems": [
    "depth_counts"
   ],
   "note": "Over all histories from reset."
  },
  {
   "property": "C18",
   "status": "proved",
   "theorems": [
    "csr_instruction_semantics",
    "csr_low_privilege_denied",
    "csr_program_history",
    "csr_program_creates_nothing"
   ],
   "note": "Generic over the CSR file; instantiated with plain registers for whole programs."
  },
  {
   "property": "C19",
   "status": "proved",
   "theorems": [
    "limit_scalar_access",
    "limit_vector_load_access",
    "limit_vector_store_access",
    "limit_setting",
    "limit_every_byte_refuted",
    "limit_inactive_element_refuted"
   ],
   "note": "Holds for the address of the access as stated. The stronger reading (no byte above the limit) is refuted, as is precision for inactive elements."
  },
  {
   "property": "C20",
   "status": "partial",
   "theorems": [
    "base_alu_correct",
    "base_alu_iso_partial",
    "addw_iso_refuted"
   ],
   "note": "Holds for all operands if signed overflow wraps; under ISO C++ addw/subw overflow in int32_t is undefined behaviour (witness in addw_iso_refuted)."
  },
  {
   "property": "C21",
   "status": "partial",
   "theorems": [
    "muldiv_correct",
    "muldiv_iso_partial",
    "mulw_iso_refuted",
    "division_law"
   ],
   "note": "Holds for all operands if signed overflow wraps; under ISO C++ only mulw overflow is undefined."
  },
  {
   "property": "C22",
   "status": "partial",
   "theorems": [
    "jal_correct",
    "jalr_correct",
    "branch_correct_partial",
    "branch_trap_value_refuted",
    "branch_without_misa_refuted"
   ],
   "note": "Jumps are fully correct; a misaligned taken branch reports its own address instead of the target, and a missing misa aborts."
  },
  {
   "property": "C23",
   "status": "proved",
   "theorems": [
    "load_correct",
    "store_correct",
    "store_then_load"
   ],
   "note": "Memory object is the mpact-sim byte store (trusted base)."
  },
  {
   "property": "C24",
   "status": "partial",
   "theorems": [
    "bitmanip_correct_partial",
    "cpopw_low_half_partial",
    "cpopw_refuted",
    "b_file_correct"
   ],
   "note": "Every Zba/Zbb/Zbs/Zicond instruction except RV64 cpopw of riscv_bitmanip_instructions.cc, which leaves the upper half of rd stale; riscv_b_instructions.cc is correct throughout."
  },
  {
   "property": "C25",
   "status": "partial",
   "theorems": [
    "clmul_correct_partial",
    "clmulr_rv32_refuted"
   ],
   "note": "RV32 clmulr stops one iteration early: wrong whenever bit 31 of rs2 is set and rs1 is nonzero."
  },
  {
   "property": "C26",
   "status": "partial",
   "theorems": [
    "rd_fully_defined_partial",
    "cpopw_refuted"
   ],
   "note": "False for RV64 cpopw; proved for all other modelled integer instructions. RV64 fclass.s is outside this model part."
  },
  {
   "property": "C27",
   "status": "partial",
   "theorems": [
    "frame_sizes",
    "register_lists",
    "push_correct",
    "push_pop_restores",
    "push_popret_partial",
    "move_pairs",
    "push_pop_rvm23_order_refuted",
    "push_fault_keeps_sp_refuted",
    "pop_fault_keeps_registers_refuted",
    "push_wraps_rv32_refuted",
    "popret_even_target_refuted"
   ],
   "note": "Round trip proved for the operand order of riscv_zcmp64; refuted for the order riscv_zcmp32 declares, and for faulting or wrapping accesses."
  },
  {
   "property": "C28",
   "status": "partial",
   "theorems": [
    "box_then_unbox",
    "unboxed_reads_as_nan",
    "moves_and_loads_box_partial",
    "compressed_flw_boxes_refuted",
    "unboxed_operand_is_nan_refuted",
    "half_operands_declared_refuted"
   ],
   "note": "Box/unbox and the boxing check proved for all formats, moves and loads box; refuted: c.flw/c.flwsp leave the upper half, RV32 compares, fclass, fcvt to integers and fcvt.d.s ignore the upper bits, four half instructions read an operand that is not declared."
  },
  {
   "property": "C29",
   "status": "partial",
   "theorems": [
    "classify_correct",
    "fclass_correct_partial",
    "fclass_single_rv64_refuted"
   ],
   "note": "Classification proved one-hot and right for every pattern of every format; refuted: RV64 fclass.s writes only the low half of the register; operands are not checked for boxing."
  },
  {
   "property": "C30",
   "status": "partial",
   "theorems": [
    "min_max_sgnj_cmp_correct_partial",
    "fmv_x_correct_partial",
    "fmv_x_h_semantics_partial",
    "half_operands_declared_refuted"
   ],
   "note": "All single and double instructions and the half compares, all register contents; single operands must be boxed where the code does not check (RV32 compares); half fmin/fmax/fsgnj read an operand that is not declared."
  },
  {
   "property": "C31",
   "status": "partial",
   "theorems": [
    "fcvt_int_correct_partial",
    "fcvt_tie_inexact_refuted",
    "fcvt_min_int_defined_refuted",
    "unboxed_operand_is_nan_refuted"
   ],
   "note": "All formats, integer types, modes, boxed operands; refuted: RMM ties do not raise inexact, the smallest signed integer relies on overflow, unboxed operands are not NaN."
  },
  {
   "property": "C32",
   "status": "proved",
   "theorems": [
    "half_widening_exact"
   ],
   "note": "All half patterns (also unboxed registers), both targets, value, sign, NaN and flags."
  },
  {
   "property": "C33",
   "status": "proved",
   "theorems": [
    "host_flags_read",
    "host_flags_write",
    "host_flags_round_trip",
    "host_flags_union_read",
    "host_flags_union_write",
    "host_flags_monotone"
   ],
   "note": "Both hosts; each guest flag is the corresponding host flag bit in both directions."
  },
  {
   "property": "C34",
   "status": "partial",
   "theorems": [
    "frm_view",
    "fcsr_views_partial",
    "fcsr_is_frm_and_fflags",
    "rounding_mode_used",
    "dynamic_rounding_partial",
    "fcsr_set_bits_refuted",
    "rounding_recovery_refuted",
    "vector_rounding_refuted",
    "rmm_refuted"
   ],
   "note": "Refuted: csrrs/csrrc on fcsr lose accrued flags; writing the former mode back after an illegal frm leaves dynamic instructions refused; vector instructions run in a stale mode; RMM runs as RNE."
  },
  {
   "property": "C35",
   "status": "partial",
   "theorems": [
    "vset_partial",
    "vset_keep_partial",
    "vl_bounded",
    "vl_only_vset",
    "vset_keep_refuted",
    "vset_avl_refuted",
    "vset_vill_refuted",
    "vset_vstart_refuted"
   ],
   "note": "vl law proved for AVL < 2^32 and supported vtype, vl <= VLMAX for all histories; refuted: rs1=rd=x0 overwrites vl, 64-bit AVL truncated, no vill, vstart kept."
  },
  {
   "property": "C36",
   "status": "partial",
   "theorems": [
    "vector_elementwise_partial",
    "vector_config_reachable",
    "vector_reserved_emul",
    "vector_immediate_partial",
    "vector_rem_refuted",
    "vector_exception_sticky_refuted",
    "vector_misaligned_source_refuted",
    "vector_immediate_refuted"
   ],
   "note": "Proved for all integer element-wise instructions except overflowing vrem and the 64-bit shift immediates (refuted)."
  },
  {
   "property": "C37",
   "status": "proved",
   "theorems": [
    "fixed_point_exact"
   ],
   "note": "All thirteen fixed-point instructions."
  },
  {
   "property": "C38",
   "status": "partial",
   "theorems": [
    "carry_out_partial",
    "carry_out_refuted"
   ],
   "note": "Exact for SEW 8-32 and vmsbc at every SEW; vmadc at SEW=64 is wrong for some operands (refuted)."
  },
  {
   "property": "C39",
   "status": "partial",
   "theorems": [
    "mask_logical_partial",
    "mask_logical_refuted"
   ],
   "note": "Body bits correct for 0<=vstart<vl; prestart bits and vl=0 refuted."
  },
  {
   "property": "C40",
   "status": "partial",
   "theorems": [
    "vrgather_partial",
    "vrgather_refuted",
    "vslideup_partial",
    "vslidedown_partial",
    "vslide_refuted",
    "vslide1_partial",
    "vslide1_refuted",
    "vcompress_partial",
    "vcompress_refuted"
   ],
   "note": "Unmasked or single-register instructions move the right elements, apart from the refuted cases: masks over several registers, gather indices past VLMAX, huge offsets, element 1 of vslide1up, the last element of vslide1down, vcompress with vstart>0."
  },
  {
   "property": "C41",
   "status": "partial",
   "theorems": [
    "vload_partial",
    "vload_frame",
    "vload_vstart_refuted",
    "vload_undefined_refuted",
    "vload_rv32_refuted"
   ],
   "note": "Correct for vstart at a register boundary (indexed: 0); a resumed load inside a register puts data in the wrong elements; indexed loads with vstart>0, vstart>vl and overflowing strides are undefined; RV32 addresses do not wrap."
  },
  {
   "property": "C42",
   "status": "partial",
   "theorems": [
    "segment_load_partial",
    "segment_load_refuted",
    "segment_store_partial",
    "segment_round_trip_partial",
    "vstore_refuted"
   ],
   "note": "Layout and round trip hold when groups are single registers or full and the registers fit the largest aligned group at vd; the other cases are refuted."
  },
  {
   "property": "C43",
   "status": "partial",
   "theorems": [
    "vcsr_is_view",
    "fixed_point_csrs_partial",
    "fixed_point_csrs_refuted"
   ],
   "note": "View law for all histories; csrrs/csrrc use a stale copy (refuted)."
  },
  {
   "property": "C44",
   "status": "partial",
   "theorems": [
    "reduction_partial",
    "reduction_refuted"
   ],
   "note": "Exact fold for vl>0, vstart=0; vl=0, the widening seed, LMUL=8 widening and vstart>0 refuted."
  },
  {
   "property": "C45",
   "status": "partial",
   "theorems": [
    "vcpop_count",
    "vfirst_index",
    "mask_scan_partial",
    "mask_scan_refuted",
    "viota_partial",
    "vid_partial",
    "viota_vid_vstart_refuted"
   ],
   "note": "vcpop, vfirst, vmsif, vmsof hold; masked vmsbf and vstart>0 for viota/vid refuted."
  },
  {
   "property": "C46",
   "status": "partial",
   "theorems": [
    "clint_line_partial",
    "clint_line_repaired",
    "clint_line_mtime_write_refuted",
    "clint_line_reset_refuted",
    "clint_rate",
    "clint_rate_any",
    "clint_rate_from_start",
    "clint_registers",
    "clint_msip_line",
    "clint_store64_refuted",
    "clint_store8_refuted",
    "clint_load8_refuted"
   ],
   "note": "The line equals mtime >= mtimecmp in every history without mtime writes or resets, and again after the next mtimecmp write or mtime advance; false right after a write to mtime or a reset. Rate and 32-bit register access hold for all histories; 64-bit and sub-word stores do not behave."
  },
  {
   "property": "C47",
   "status": "partial",
   "theorems": [
    "plic_claim_best_partial",
    "plic_claim_once_partial",
    "plic_pending_kept_partial",
    "plic_accept",
    "plic_complete",
    "plic_line_lowered",
    "plic_claim_once_refuted",
    "plic_configure_disable_refuted",
    "plic_nested_claims_refuted",
    "plic_line_low_refuted",
    "plic_line_high_refuted"
   ],
   "note": "Claims are right in every history whose configurations enable each pair once and whose priority writes do not wake a held level (condition good). Without it a source can be delivered twice or although configured disabled. The second of two nested claims makes the code forget the first. The line is raised by accepted interrupts and lowered by claims, but can be low with an interrupt pending and high with none."
  },
  {
   "property": "C48",
   "status": "partial",
   "theorems": [
    "plic_threshold_register",
    "plic_priority_register_partial",
    "plic_enable_register_partial",
    "plic_priority_register_refuted",
    "plic_priority_bounds_refuted",
    "plic_enable_register_refuted",
    "plic_enable_context_refuted",
    "plic_pending_register_refuted",
    "plic_store64_refuted"
   ],
   "note": "True of thresholds. Priority and enable registers are written and read at different addresses, which the partial theorems give exactly."
  },
  {
   "property": "C49",
   "status": "partial",
   "theorems": [
    "fmt_roundtrip",
    "fmt_frame",
    "fmt_fields",
    "fmt_width",
    "imm_extract_partial",
    "imm_unique_partial",
    "imm_insert_partial",
    "imm_extract_refuted",
    "zcd_offsets_refuted"
   ],
   "note": "Round trip and frame hold for every field of every format. Agreement with the manual holds for 108 format operands and is refuted for six: c.lbu/c.sb offset bits swapped, prefetch offset not sign extended, vsetvli/vsetivli zimm sign extended, CB rs2; and for the three Zcd offsets."
  },
  {
   "property": "C50",
   "status": "partial",
   "theorems": [
    "decoder_operands",
    "asm_encodes_partial",
    "asm_roundtrip_partial",
    "asm_accepts_partial",
    "asm_accepts_simm12_partial",
    "asm_roundtrip_refuted",
    "asm_rm_refuted",
    "asm_accepts_refuted",
    "asm_mnstatus_refuted",
    "asm_range_refuted"
   ],
   "note": "Holds for 45 of 49 operands. Refuted: Frs2, c.swsp/c.sdsp offsets, rounding mode, negative store offsets, literal jump targets of 2^31 and above, missing and misspelt CSR names, mnstatus number, out of range values truncated."
  },
  {
   "property": "C51",
   "status": "partial",
   "theorems": [
    "breakpoints_partial",
    "breakpoints_restored_partial",
    "get_instruction_transparent_partial",
    "breakpoints_overlap_refuted",
    "breakpoints_stale_refuted",
    "breakpoints_poke_refuted",
    "read_memory_shows_breakpoint_refuted"
   ],
   "note": "Proved for all histories without overlap and without writes to places that have or had a breakpoint; the excluded histories are refuted."
  },
  {
   "property": "C52",
   "status": "partial",
   "theorems": [
    "session_partial",
    "run_partial",
    "step_after_pc_change_refuted",
    "step_after_clear_refuted",
    "breakpoint_loses_interrupt_refuted",
    "action_point_twice_refuted",
    "action_point_jump_refuted",
    "action_point_livelock_refuted",
    "breakpoint_counts_refuted",
    "run_drops_halt_refuted",
    "breakpoint_trace_target_refuted"
   ],
   "note": "Proved for all programs, processors and sessions of breakpoints, pc writes, Step and Run under stated side conditions; each excluded case (pc moved or breakpoint cleared after a stop, interrupt at a stop, action points) is refuted."
  },
  {
   "property": "C53",
   "status": "partial",
   "theorems": [
    "branch_trace_partial",
    "branch_trace_wide_refuted"
   ],
   "note": "Proved for all histories with 32-bit branch addresses; refuted for wider addresses."
  },
  {
   "property": "C54",
   "status": "proved",
   "theorems": [
    "read_memory_correct",
    "write_memory_correct",
    "write_then_read"
   ],
   "note": "For every limit below 2^64 - 1."
  },
  {
   "property": "C55",
   "status": "partial",
   "theorems": [
    "sip_read_delegated_partial",
    "sip_hides_undelegated_refuted"
   ],
   "note": "The view masks with (mideleg or read mask), so undelegated bits are visible."
  },
  {
   "property": "C56",
   "status": "partial",
   "theorems": [
    "line_update_offered_partial",
    "enable_write_offered_partial",
    "check_offered_partial",
    "ext_line_lost_refuted",
    "mret_lost_refuted",
    "take_discards_offer_refuted"
   ],
   "note": "Several updates do not check (refuted)."
  },
  {
   "property": "C57",
   "status": "partial",
   "theorems": [
    "depth_balanced_partial",
    "depth_zero_when_idle_refuted"
   ],
   "note": "Returns from exceptions decrement the count (refuted)."
  },
  {
   "property": "C58",
   "status": "partial",
   "theorems": [
    "legal_mode_partial",
    "reserved_mode_refuted"
   ],
   "note": "MPP accepts the reserved value (refuted)."
  },
  {
   "property": "C59",
   "status": "partial",
   "theorems": [
    "csr_nonexistent_traps_refuted",
    "csr_read_only_traps_refuted",
    "csr_nonexistent_no_effect_partial"
   ],
   "note": "Refuted: neither case traps."
  },
  {
   "property": "C60",
   "status": "partial",
   "theorems": [
    "table_jump_partial",
    "table_jump_even_refuted",
    "table_jump_fault_refuted",
    "table_call_fault_link_refuted"
   ],
   "note": "Correct target for even, accessible entries; the rest is refuted."
  },
  {
   "property": "C61",
   "status": "partial",
   "theorems": [
    "decode_unambiguous",
    "decode_unambiguous_partial",
    "decode_unambiguous_refuted",
    "manual_consistent"
   ],
   "note": "Proved without exception for thirteen decoders. For RVM23 (32- and 16-bit) proved outside the listed words and refuted: mop.rr.N rows lack func3 and overlap every CSR instruction, pause overlaps fence.i, c.lui overlaps c.mop.N."
  },
  {
   "property": "C62",
   "status": "partial",
   "theorems": [
    "decode_complete",
    "decode_complete_partial",
    "decode_complete_refuted"
   ],
   "note": "Without exception for Zfh (RV32, RV64) and Zvbb. The other twelve decoders miss exactly the listed words: NTL hints and reserved fence fields, csrrw on cycle, fault-only-first segment loads, rev8/bseti/bclri/binvi/bexti on RV64, rori and the immediate bit operations and zext.h on RV32 V+Zb and RVM23, compressed shift-by-zero and other hints."
  },
  {
   "property": "C63",
   "status": "partial",
   "theorems": [
    "decode_sound",
    "decode_sound_partial",
    "decode_sound_refuted"
   ],
   "note": "Without exception for seven decoders. The other eight accept exactly the listed words wrongly: reserved c.lui/c.addi16sp, RV32 rev8 and wrong-opcode bit operations on RV64, fault-only-first stores, masked mask-register instructions, vwmaccus.vv, mop.rr.N without func3, and others."
  },
  {
   "property": "C64",
   "status": "partial",
   "theorems": [
    "scalar_move_partial",
    "scalar_move_refuted"
   ],
   "note": "vmv.s.x holds; vmv.x.s holds on RV32 with vl>0, otherwise refuted."
  },
  {
   "property": "C65",
   "status": "partial",
   "theorems": [
    "whole_register_move_partial",
    "whole_register_move_refuted"
   ],
   "note": "Holds when vstart is a whole number of registers; refuted otherwise."
  },
  {
   "property": "C66",
   "status": "proved",
   "theorems": [
    "vector_compare"
   ],
   "note": ""
  },
  {
   "property": "C67",
   "status": "partial",
   "theorems": [
    "vstore_partial",
    "segment_store_partial",
    "vstore_refuted"
   ],
   "note": "Exact effect for vstart=0; refuted: vstart>0, unordered indexed segment stores, sign-extended indices, data registers like v9 with two fields."
  },
  {
   "property": "C68",
   "status": "partial",
   "theorems": [
    "mask_load_partial",
    "mask_load_refuted",
    "mask_store_partial",
    "whole_register_load_partial",
    "whole_register_store",
    "whole_register_load_refuted"
   ],
   "note": "Byte-for-byte; vlm and whole-register loads resumed at vstart>0 are wrong."
  },
  {
   "property": "C69",
   "status": "partial",
   "theorems": [
    "vload_fault_partial",
    "vstore_fault_partial",
    "segment_load_fault_partial",
    "vector_fault_refuted"
   ],
   "note": "Trap value and unchanged state proved; refuted: masked-off elements fault, vstart is cleared instead of set to the faulting element."
  },
  {
   "property": "C70",
   "status": "partial",
   "theorems": [
    "arith_rounded_partial",
    "rmm_runs_as_rne_partial",
    "rmm_arith_refuted"
   ],
   "note": "Proved for all register contents of single and double in modes RNE, RTZ, RDN, RUP on every host satisfying host_ok. RMM runs as RNE (refuted). A float sqrt call that selects the double function and rounds twice is covered too."
  },
  {
   "property": "C71",
   "status": "partial",
   "theorems": [
    "fma_single_partial",
    "fma_double_partial",
    "fma_unboxed_refuted",
    "fma_double_signaling_refuted",
    "fma_double_zero_rdn_refuted",
    "fnmsub_double_zero_refuted",
    "fnmadd_double_cancel_refuted",
    "fnmadd_double_directed_refuted",
    "fma_single_wide_refuted"
   ],
   "note": "Single: boxed operands, four modes. Double: under fma_safe. Refuted: unboxed operands, signaling NaNs, zero signs, negation after rounding, double rounding when fma selects the double function."
  },
  {
   "property": "C72",
   "status": "partial",
   "theorems": [
    "int_to_float_partial",
    "narrowing_partial",
    "narrowing_signaling_refuted",
    "rmm_int_refuted",
    "single_widening_exact_partial",
    "single_widening_signaling_refuted"
   ],
   "note": "Proved for all operands in modes RNE, RTZ, RDN, RUP except signaling NaNs, which do not raise NV (refuted); RMM refuted."
  },
  {
   "property": "C73",
   "status": "partial",
   "theorems": [
    "step_correct_partial",
    "step_illegal_partial",
    "step_spec_unique",
    "step_refuted"
   ],
   "note": "Proved for every word of RV32/RV64 I, M, C, Zba, Zbb, Zbc, Zbs, fence, fence.i and F/D loads and stores in eight simulators, in every state, outside the exceptions listed in StepSpec.regular; refuted with witnesses for those exceptions. System and CSR instructions: C91; FP computational instructions: C93; atomic instructions: C76."
  },
  {
   "property": "C74",
   "status": "partial",
   "theorems": [
    "run_correct_partial",
    "run_wraps_refuted"
   ],
   "note": "Induction over any number of steps, any decode-cache choices, for runs that meet only covered instructions and do not rewrite executed code; refuted for a pc leaving the RV32 address space."
  },
  {
   "property": "C75",
   "status": "partial",
   "theorems": [
    "fence_i_refuted",
    "run_correct_partial"
   ],
   "note": "Refuted: after fence.i the stale instruction executes. Code written before its first execution is covered by run_correct_partial."
  },
  {
   "property": "C76",
   "status": "partial",
   "theorems": [
    "amo_correct_partial",
    "amo_faults_refuted",
    "amo_without_memory"
   ],
   "note": "Proved for aligned, accessible addresses given atomic_ok; refuted: addresses beyond the limit and misaligned addresses raise no access fault or misaligned exception, whatever the atomic memory does. Reservation tracking belongs to mpact-sim."
  },
  {
   "property": "C77",
   "status": "partial",
   "theorems": [
    "half_narrowing_partial",
    "half_of_int_partial",
    "rounding_is_to_a_neighbour",
    "half_underflow_refuted",
    "half_narrowing_rmm_refuted",
    "half_of_int_rmm_refuted"
   ],
   "note": "All inputs and the modes RNE, RTZ, RDN, RUP, on any host_ok host: value and boxing right, flags right for integers and right up to a spurious UF for fcvt.h.s/d. Refuted: UF for results rounded up to 2^-14, RMM."
  },
  {
   "property": "C78",
   "status": "partial",
   "theorems": [
    "half_arith_partial",
    "half_fma_partial",
    "half_arith_unboxed_refuted",
    "half_arith_rmm_refuted",
    "half_fma_rne_refuted",
    "half_fma_flags_refuted"
   ],
   "note": "Low 16 bits right for fadd.h, fsub.h, fmul.h, fdiv.h, fsqrt.h in the four modes and for the fused family in RTZ, RDN, RUP. Refuted: the boxing of every result, RMM, fused multiply-add in RNE and its flags."
  },
  {
   "property": "C79",
   "status": "partial",
   "theorems": [
    "vector_fp_arith_partial",
    "vector_sqrt_partial",
    "vector_fp_nan_refuted",
    "vector_fp_rmm_refuted",
    "vector_fp_unboxed_refuted",
    "vector_fp_wide_operand_refuted",
    "vector_sqrt_qnan_refuted"
   ],
   "note": "Values (up to the NaN pattern), flags and frame for all instances in the four host modes, the widening multiply-adds rounding once. Refuted: canonical NaNs, RMM, unboxed scalars, vfwadd.w and vfwsub.w, the flag of vfsqrt on quiet NaNs."
  },
  {
   "property": "C80",
   "status": "partial",
   "theorems": [
    "vector_fp_minmax_class_partial",
    "vector_fmerge_refuted"
   ],
   "note": "Everything except vfmerge and unboxed scalars; vfmerge.vfm refuted (it reads a vector register)."
  },
  {
   "property": "C81",
   "status": "partial",
   "theorems": [
    "vector_convert_to_fp_partial",
    "vector_convert_to_int_partial",
    "vector_convert_rounding_refuted",
    "vector_convert_limit_refuted",
    "vector_widen_snan_refuted",
    "vector_round_to_odd_refuted"
   ],
   "note": "From integers and between formats in the four host modes; to integers for elements that need no rounding. Refuted: rounding of conversions to integers and their inexact flag, the integer just above the range (undefined behaviour), the invalid flag of vfwcvt.f.f.v, vfncvt.rod."
  },
  {
   "property": "C82",
   "status": "partial",
   "theorems": [
    "vector_estimate_partial",
    "vector_rsqrt7_refuted",
    "vector_rec7_refuted"
   ],
   "note": "Error below 2^-7 and special cases where the code is right. Refuted: one table entry, flags for +infinity and quiet NaNs (vfrsqrt7), flags, overflow and subnormal results (vfrec7)."
  },
  {
   "property": "C83",
   "status": "partial",
   "theorems": [
    "vector_fp_illegal_partial",
    "vector_fp_other_illegal_partial",
    "vector_fp_frm_refuted"
   ],
   "note": "Refuted for the instructions that do not use frm (vfmin runs)."
  },
  {
   "property": "C84",
   "status": "partial",
   "theorems": [
    "vector_fcompare_partial",
    "vector_fcompare_flags_refuted"
   ],
   "note": "Mask bits proved for all elements; the invalid flag is never recorded (refuted); scalars must be boxed."
  },
  {
   "property": "C85",
   "status": "partial",
   "theorems": [
    "vector_freduce_partial",
    "vector_freduce_snan_refuted",
    "vector_freduce_zeros_refuted",
    "vector_freduce_rmm_refuted",
    "vector_freduce_vl0_refuted",
    "vector_freduce_lmul8_refuted"
   ],
   "note": "Refuted: signaling NaNs and zeros of both signs (min/max), RMM, vl = 0, LMUL = 8 when widening. vstart > 0 is not covered; NaN results up to payload. vfwredosum has no semantic function."
  },
  {
   "property": "C86",
   "status": "partial",
   "theorems": [
    "vector_fmove_to_f",
    "vector_fsplat_partial",
    "vector_fset0_partial",
    "vector_fsplat_group_refuted",
    "vector_fmove_box_refuted",
    "vector_fmove_vstart_refuted"
   ],
   "note": "vfmv.f.s fully; vfmv.v.f within one register, from vstart 0, boxed; refuted otherwise (buffer overrun, box ignored, vstart not reset)."
  },
  {
   "property": "C87",
   "status": "proved",
   "theorems": [
    "semihost_unmarked_nothing",
    "semihost_unknown_op_nothing",
    "semihost_unimplemented_minus_one",
    "semihost_call_frame"
   ],
   "note": ""
  },
  {
   "property": "C88",
   "status": "partial",
   "theorems": [
    "semihost_unknown_handle_refused_partial",
    "semihost_unknown_handle_refused_refuted",
    "semihost_handles_distinct_partial",
    "semihost_close_partial",
    "semihost_close_invalidates_refuted",
    "semihost_close_releases_refuted",
    "semihost_handles_distinct_refuted"
   ],
   "note": "Unknown handles: all histories, up to the low 32 bits (RV64 refuted). Distinctness and the right file: histories in which no handle is closed twice; refuted otherwise. A closed handle stays usable and reaches the next file opened; the descriptor made for it leaks."
  },
  {
   "property": "C89",
   "status": "partial",
   "theorems": [
    "semihost_seek_flen_istty_partial",
    "semihost_write_partial",
    "semihost_read_partial",
    "semihost_write_result_refuted",
    "semihost_read_result_refuted",
    "semihost_seek_large_refuted",
    "semihost_cmdline_partial",
    "semihost_cmdline_result_refuted",
    "semihost_open_read_partial",
    "semihost_open_flags_refuted",
    "semihost_heapinfo_partial",
    "semihost_heapinfo_refuted",
    "semihost_errno_partial",
    "semihost_errno_close_refuted"
   ],
   "note": "Refuted: results of SYS_WRITE, SYS_READ and SYS_GET_CMDLINE, memory after a short read, offsets and addresses from 2^31, open flags of all modes but 0, SYS_HEAPINFO on RV64, errno after a successful close."
  },
  {
   "property": "C90",
   "status": "partial",
   "theorems": [
    "htif_not_pending_nothing",
    "htif_halt",
    "htif_fd_call",
    "htif_unknown_fd",
    "htif_exit",
    "htif_openat_partial",
    "htif_opened_file_usable_refuted",
    "htif_unknown_call_partial",
    "htif_unknown_call_refuted"
   ],
   "note": "Refuted: a file opened with openat can never be used or closed; an unknown call without an error callback crashes."
  },
  {
   "property": "C91",
   "status": "partial",
   "theorems": [
    "machine_run_correct_partial",
    "machine_uninterrupted_partial",
    "machine_reset_ok",
    "epc_misaligned_refuted",
    "mpp_reserved_refuted"
   ],
   "note": "Every covered program: instructions of C73 and the system instructions, except sret in M mode as in C14, vectored exceptions (C12), misaligned values written to xepc and the reserved mode written to MPP (refuted here), CSRs other than the 14 named in the statement, and code that is overwritten. uret and sfence.vma are not covered."
  },
  {
   "property": "C92",
   "status": "partial",
   "theorems": [
    "interrupt_precise",
    "machine_run_correct_partial",
    "interrupt_taken_partial",
    "interrupt_spurious_refuted"
   ],
   "note": "Precision, enabling, delegation and return address for all schedules, provided no interrupt was on offer when Step was called (stale offers: C11, C16). Refuted: an interrupt no longer pending can be taken. Taken if eligible: for line changes other than the supervisor external line (C56 refutes the others)."
  },
  {
   "property": "C93",
   "status": "partial",
   "theorems": [
    "fp_step_correct_partial",
    "fp_words_exist",
    "fp_illegal_refuted",
    "fp_dirty_refuted"
   ],
   "note": "From the word to the new state, for RV32G, RV64G, RV32GV and RV64GV, every word of the 48 (RV32) or 58 (RV64) F and D computational instructions, all registers, with FS Dirty, a rounding mode in force and the operands of FstepSpec.settled (the others are wrong, see C28-C31 and C70-C72), on a host that follows IEEE 754. Refuted: FS Off and reserved rounding modes never raise an exception, FS is not made Dirty. The GZB simulators, Zfh and the remaining words with unsettled operands are not covered."
  },
  {
   "property": "C94",
   "status": "partial",
   "theorems": [
    "reloc_correct_partial",
    "reloc_number",
    "reloc_missing_refuted",
    "reloc_wrong_refuted"
   ],
   "note": "Proved for the eight operands with a relocation function (addi, sd with every modifier; lui %hi, auipc %pcrel_hi, jalr and jr %pcrel_lo, jal and j without modifier), for every symbol of two or more characters with no blank after it, and for every number. Refuted: 24 of the 32 relocatable operands (sw, all loads, branches, ...) never yield an entry and no error; one-character symbols are rejected, dropped or, with lui, replaced by another symbol; blanks after the symbol become part of it; lui and jal accept any modifier; jalr drops %lo."
  },
  {
   "property": "C95",
   "status": "partial",
   "theorems": [
    "misa_history",
    "misa_initial",
    "misa_xlen_partial",
    "misa_xlen_refuted",
    "misa_values_refuted"
   ],
   "note": "Proved for all initial values, all histories of instruction accesses and 64-bit sets, both views, the tests for S and C, and the default value. Refuted: the width of every 64-bit machine is reported as unknown (and MXL 3 as 32 bits), user mode is implemented though the letter U is never set, and the flag --misa and the 32-bit Set lose MXL on 32-bit machines."
  },
  {
   "property": "C96",
   "status": "partial",
   "theorems": [
    "gdb_escape",
    "gdb_described",
    "gdb_numbers_partial",
    "gdb_width_partial",
    "gdb_vector_refuted",
    "gdb_width_refuted",
    "gdb_instance_partial",
    "gdb_instance_refuted"
   ],
   "note": "Proved: escaping for every text; the description for all widths; numbers for all registers but v0 to v31 on targets with floating point or without vectors; widths of the integer registers, pc and equally wide floating-point registers; instances after all histories with vector registers of at most 128 bits. Refuted: v0 to v31 have no number in the simulator, vector control registers have other numbers without floating point, f0 on RV32 with doubles and fcsr on RV64 are transferred with the wrong width, requests for vectors of 256 bits and more shift an int too far."
  },
  {
   "property": "C97",
   "status": "partial",
   "theorems": [
    "csr_construction_succeeds",
    "csr_number_means_register_partial",
    "csr_register_found_partial",
    "csr_high_half_partial",
    "csr_instreth_refuted",
    "csr_mhpmcounterh_refuted",
    "csr_required_refuted"
   ],
   "note": "Proved: construction succeeds in all configurations; every number that holds a register holds the manual's one, but for instreth; every listed register but six is found by number and name; high halves but mhpmcounter3h to 31h and instreth. Refuted: instreth is at 0x82 and not at 0xc82, mhpmcounter3h to 31h point outside their counters, mvendorid, marchid, mimpid, mcounteren and satp do not exist."
  },
  {
   "property": "C98",
   "status": "partial",
   "theorems": [
    "watch_trace_partial",
    "watch_transparent",
    "watch_vector_refuted",
    "watch_size_refuted"
   ],
   "note": "Proved for all histories: every call is passed on; the trace reads back as the events if scalar stores have 1, 2, 4 or 8 bytes, vector accesses have all elements active and vector stores have equal elements. Refuted (a comment in the source says vectors are not supported fully yet): each element of a vector store is traced with the value of the first, inactive elements are traced, stores of other sizes read as loads."
  },
  {
   "property": "C99",
   "status": "partial",
   "theorems": [
    "renode_register_access",
    "renode_vector_refuted",
    "renode_info_partial",
    "renode_name_refuted",
    "renode_width_refuted"
   ],
   "note": "Proved: every number accesses the register of the debug specification or is an error; the list is right for RV32 with single-precision registers and buffers longer than three characters. Refuted: the entries for vector registers have the numbers of f0 to f31 and cannot be reached, registers of RV64 are reported as 32 bits wide, names that fill the buffer are not terminated."
  }
 ]
}