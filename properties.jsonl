{"id": "C01", "title": "Masked CSR writes never leak outside the write mask", "statement": "For a plain control/status register created with a read mask and a write mask, whatever sequence of write / set-bits / clear-bits operations is applied, every bit outside the write mask keeps its initial value, every bit inside behaves as an independent flip-flop driven by the operations, and a read returns exactly the stored bits selected by the read mask.", "quantifier": "all register widths (32/64), masks, initial values and all finite sequences of operations", "why_tests_cant": "2^64 values x 2^64 masks and unbounded operation histories; a test samples a handful of masks", "anchors": ["riscv/riscv_csr.h: RiscVSimpleCsr::AsUint32/AsUint64/Write/SetBits/ClearBits/Set/Reset"]}
{"id": "C02", "title": "CSR table: lookups by name and by number always agree", "statement": "For every history of adding, removing and looking up CSRs, a lookup by number and a lookup by name denote the same register, a rejected add or remove leaves the table unchanged, and the table equals the abstract set of (name, number) pairs successfully added and not yet removed.", "quantifier": "all finite sequences of AddCsr/RemoveCsr/GetCsr with arbitrary names and numbers, including duplicates", "why_tests_cant": "the agreement of two independent maps is an invariant over unbounded histories", "anchors": ["riscv/riscv_csr.cc: RiscVCsrSet::AddCsr, GetCsr, RemoveCsr"]}
{"id": "C03", "title": "A shadow CSR writes through only its own bits", "statement": "Writing a shadow view of a CSR changes only base bits selected by the view's write mask; reading it shows only base bits selected by the read mask; a view with an empty write mask never changes the base.", "quantifier": "all base registers, masks, values and operation sequences through either view", "why_tests_cant": "masks and values are 64-bit; interleavings of two views are unbounded", "anchors": ["riscv/riscv_csr.h: RiscVShadowCsr"]}
{"id": "C04", "title": "mstatus fields are independent and commit atomically at Submit", "statement": "For every named status field, staging a value through its setter and submitting makes the getter return that value and leaves every other writable field unchanged; any number of staged updates to different fields take effect together at Submit and none before it.", "quantifier": "all status values, all finite sequences of field setters followed by Submit, all argument values", "why_tests_cant": "pairwise interaction of 16 fields over all histories", "anchors": ["riscv/riscv_xstatus.h: field getters/setters", "riscv/riscv_xstatus.cc: RiscVMStatus::Submit, SetterHelper, Write, Set"]}
{"id": "C05", "title": "Supervisor status view cannot read or modify machine-only fields", "statement": "Writing sstatus changes only the supervisor-visible writable bits of mstatus; reading sstatus returns only supervisor-visible bits.", "quantifier": "all mstatus contents and all written values, 32- and 64-bit accesses", "why_tests_cant": "2^64 contents x 2^64 values; confidentiality/integrity of a view is a for-all property", "anchors": ["riscv/riscv_xstatus.cc: RiscVSStatus::AsUint64, Write, Set"]}
{"id": "C06", "title": "sip/sie views: software can set and clear exactly its own writable bits", "statement": "After writing v to sip (or sie), each bit selected by the view's write mask equals the bit of v and every other bit of mip (mie) is unchanged; in particular a pending bit can be cleared.", "quantifier": "all mip/mie contents and all written values", "why_tests_cant": "bitwise for-all over two 64-bit words", "anchors": ["riscv/riscv_xip_xie.cc: RiscVSIp::Set, RiscVSIe::Set, RiscVMIp::GetUint64/SetterHelper"]}
{"id": "C07", "title": "External supervisor interrupt line and the software SEIP bit stay separate", "statement": "For every history of field updates of mip and changes of the external line, reading bit 9 gives software bit OR line, and lowering the line restores the software value.", "quantifier": "all finite sequences of line changes and mip field/word updates", "why_tests_cant": "requires tracking which source set a bit through an unbounded history", "anchors": ["riscv/riscv_xip_xie.cc: RiscVMIp::GetUint64, SetterHelper, set_ext_seip"]}
{"id": "C08", "title": "64-bit counter read/write law", "statement": "After writing v to a counter CSR, reading it after the underlying event counter advanced by n returns (v + n) modulo the register width; a write never changes the event counter itself or any other CSR on the same event counter.", "quantifier": "all event-counter values, offsets, written values and increments", "why_tests_cant": "2^64 cubed", "anchors": ["riscv/riscv_counter_csr.h: RiscVCounterCsr::Set/Get*"]}
{"id": "C09", "title": "Low/high counter halves on RV32 form one 64-bit counter", "statement": "Writing low then high (or high then low) halves makes the pair read as the 64-bit value written plus the number of events since, with carries propagating from low to high; writing one half does not disturb the other.", "quantifier": "all counter values, offsets, half-words and increments", "why_tests_cant": "carry/borrow corner cases across 2^64 x 2^64 states", "anchors": ["riscv/riscv_counter_csr.h: RiscVCounterCsrHigh, RiscVPerformanceCsr*, riscv_state.cc: Trap"]}
{"id": "C10", "title": "Trap entry records cause, value and return address and masks interrupts in the right mode", "statement": "Taking a trap saves the given epc, cause (with interrupt bit) and trap value in the destination mode's registers, saves the old privilege mode and interrupt enable in the previous-mode fields, disables interrupts for that mode, enters that mode and redirects the pc to the handler selected by the trap vector; no other mode's trap registers change.", "quantifier": "all machine states, causes, epc/trap values, RV32 and RV64", "why_tests_cant": "state space is the full CSR file", "anchors": ["riscv/riscv_state.cc: RiscVState::Trap"]}
{"id": "C11", "title": "Traps never lower privilege", "statement": "The mode that handles a trap is at least as privileged as the mode it was taken from; traps taken in machine mode are handled in machine mode; delegation to supervisor mode happens exactly when delegated by the delegation register.", "quantifier": "all privilege modes, delegation registers, causes, interrupt and exception", "why_tests_cant": "all 2^64 delegation values x causes x modes", "anchors": ["riscv/riscv_state.cc: RiscVState::Trap"]}
{"id": "C12", "title": "Exceptions ignore vectored mode; interrupts are vectored", "statement": "The handler address is the trap base for exceptions and base + 4*cause for interrupts when the vector mode is 1.", "quantifier": "all tvec values and causes", "why_tests_cant": "all 2^64 tvec values", "anchors": ["riscv/riscv_state.cc: RiscVState::Trap"]}
{"id": "C13", "title": "Return from trap undoes trap entry", "statement": "Executing mret (sret) directly after a trap into M (S) restores the interrupted privilege mode, the interrupt-enable bit, and the pc to the saved epc; pairs nest for arbitrarily deep interleavings as long as handlers save and restore the trap registers.", "quantifier": "all machine states and all properly nested trap/return sequences", "why_tests_cant": "nesting depth is unbounded", "anchors": ["riscv/riscv_priv_instructions.cc: PrivMRet, PrivSRet", "riscv/riscv_state.cc: Trap"]}
{"id": "C14", "title": "Return-from-trap instructions are privilege checked", "statement": "mret/sret executed with insufficient privilege change nothing but raise an illegal-instruction exception; sret is permitted in S (TSR=0) and M.", "quantifier": "all modes and status values, RV32 and RV64", "why_tests_cant": "combination of mode, TSR and xlen over all states", "anchors": ["riscv/riscv_priv_instructions.cc"]}
{"id": "C15", "title": "Only the highest-priority enabled pending interrupt is offered", "statement": "The interrupt check offers an interrupt iff some interrupt is pending, locally enabled and globally enabled for the current mode; the one offered is the highest in the architected order (MEI, MSI, MTI, SEI, SSI, STI), machine-level before supervisor-level.", "quantifier": "all values of mip, mie, mideleg, sideleg, mstatus and privilege mode", "why_tests_cant": "2^64 combinations of pending/enable/delegation bits", "anchors": ["riscv/riscv_state.cc: CheckForInterrupt, PickInterrupt"]}
{"id": "C16", "title": "An interrupt taken is one that is still pending and enabled", "statement": "When an interrupt is taken, it is pending and enabled at that moment.", "quantifier": "all histories of device updates, CSR writes, checks and take points", "why_tests_cant": "race between check and take over unbounded histories", "anchors": ["riscv/riscv_state.cc: CheckForInterrupt, TakeAvailableInterrupt; riscv_xip_xie.cc"]}
{"id": "C17", "title": "Interrupt handler depth counts interrupts taken minus returns", "statement": "After any history, the reported handler depth equals the number of interrupts taken minus the number of trap returns executed.", "quantifier": "all finite histories of checks, takes and returns", "why_tests_cant": "unbounded histories", "anchors": ["riscv/riscv_state.h: InterruptHandlerDepth, counters"]}
{"id": "C18", "title": "CSR instructions respect the privilege encoded in the CSR number", "statement": "A CSR instruction executed in a mode below bits 9:8 of the CSR number neither reads nor writes any CSR nor its destination register and raises an illegal-instruction exception; at or above that level, csrrw/csrrs/csrrc perform the read-modify-write of the ISA.", "quantifier": "all CSR numbers, modes, operand values and CSR contents", "why_tests_cant": "4096 numbers x 4 modes x 2^64 values", "anchors": ["riscv/riscv_zicsr_instructions.cc"]}
{"id": "C19", "title": "No memory access beyond the configured physical address limit", "statement": "A scalar load, store or any element of a vector load/store whose address exceeds the limit performs no memory access at all and raises the corresponding access fault with the offending address; otherwise exactly the requested access is performed.", "quantifier": "all addresses, address vectors, limits", "why_tests_cant": "2^64 addresses and arbitrary-length address vectors", "anchors": ["riscv/riscv_state.cc: LoadMemory, StoreMemory, set_max_physical_address"]}
{"id": "C20", "title": "Base integer ALU results equal the ISA definition for all operands", "statement": "add/sub/logic/shift/compare/lui/auipc results are the ISA's modulo-2^XLEN results, *W forms are sign-extended 32-bit results; shift amounts use only the low 5/6 bits.", "quantifier": "all pairs of 32/64-bit operands", "why_tests_cant": "2^128 operand pairs", "anchors": ["riscv/riscv_i_instructions.cc"]}
{"id": "C21", "title": "Multiply/divide results equal the ISA definition for all operands", "statement": "mul is the low half and mulh/mulhu/mulhsu the high half of the exact product; div/rem satisfy dividend = divisor*q + r with truncation toward zero, with the architected results for division by zero and signed overflow.", "quantifier": "all operand pairs, RV32 and RV64, including W forms", "why_tests_cant": "2^128 pairs", "anchors": ["riscv/riscv_m_instructions.cc"]}
{"id": "C22", "title": "Control-transfer instructions compute the architected target and link", "statement": "jal/jalr/branches set the pc to the architected target exactly when taken, link holds the address of the following instruction, jalr clears bit 0; without compressed instructions a misaligned target raises an exception reporting the target and does not transfer control.", "quantifier": "all pcs, offsets, operands", "why_tests_cant": "2^64 pcs x operands", "anchors": ["riscv/riscv_i_instructions.cc: RiscVIJal, RiscVIJalr, branches", "riscv/riscv_instruction_helpers.h: BranchConditional"]}
{"id": "C23", "title": "Store followed by load returns the stored value, extended", "statement": "A store of width w followed by a load of the same width from the same address returns the low w bits sign- or zero-extended as the load specifies; a store changes only the w/8 bytes at its address.", "quantifier": "all addresses, values, widths, memories", "why_tests_cant": "2^64 addresses x values", "anchors": ["riscv/riscv_instruction_helpers.h: RVLoad, RVLoadChild, RVStore"]}
{"id": "C24", "title": "Bit-manipulation instructions compute their bitwise definitions", "statement": "Each Zba/Zbb/Zbs instruction's result equals the bitwise/arithmetic definition of the extension for all operands; the two RV64 implementations in the repository agree.", "quantifier": "all operands, RV32 and RV64", "why_tests_cant": "2^64..2^128 operands", "anchors": ["riscv/riscv_bitmanip_instructions.cc", "riscv/riscv_b_instructions.cc"]}
{"id": "C25", "title": "Carry-less multiply yields the polynomial product over GF(2)", "statement": "clmul/clmulh/clmulr return bits [0,XLEN), [XLEN,2*XLEN), [XLEN-1,2*XLEN-1) of the carry-less product.", "quantifier": "all operand pairs, RV32 and RV64", "why_tests_cant": "2^128 operand pairs", "anchors": ["riscv/riscv_bitmanip_instructions.cc: Clmul/Clmulh/Clmulr"]}
{"id": "C26", "title": "Every 32-bit-result instruction defines all 64 bits of rd on RV64", "statement": "After an RV64 instruction whose architectural result is a 32-bit quantity, the destination register value does not depend on its previous contents.", "quantifier": "all operands and all previous destination contents", "why_tests_cant": "needs a relational (two-run) statement over all prior register values", "anchors": ["riscv/riscv_bitmanip_instructions.cc: Cpopw", "riscv/riscv_f_instructions.cc: RiscVFClass", "riscv/riscv_instruction_helpers.h"]}
{"id": "C27", "title": "cm.push followed by cm.pop is the identity on registers and restores sp", "statement": "For every register list and stack adjustment, push stores exactly the listed registers in the architected slots, lowers sp by the 16-byte aligned frame, touches no memory outside the frame, and pop with the same operands restores registers and sp.", "quantifier": "all register lists, adjustments, register files, stack pointers, memories; RV32 and RV64", "why_tests_cant": "2^64 stack pointers x register contents", "anchors": ["riscv/riscv_zc_instructions.cc", "riscv/riscv_zc_getters.h"]}
{"id": "C28", "title": "NaN boxing of narrow floats", "statement": "A narrow result written to a wider FP register has all upper bits set; reading a register whose upper bits are not all ones as a narrow value yields the canonical NaN; boxing then unboxing is the identity.", "quantifier": "all bit patterns, half and single in 64-bit registers", "why_tests_cant": "2^64 register contents", "anchors": ["riscv/riscv_instruction_helpers.h: GetNaNBoxedSource, RiscV*FloatNaNBoxOp"]}
{"id": "C29", "title": "fclass returns exactly one of ten bits and the right one", "statement": "The classification result is one-hot and identifies the IEEE class of the operand for every bit pattern.", "quantifier": "all 2^16, 2^32 and 2^64 bit patterns", "why_tests_cant": "2^64 patterns", "anchors": ["riscv/riscv_instruction_helpers.h: ClassifyFP"]}
{"id": "C30", "title": "FP min/max/sign-injection/compare agree with the ISA on every bit pattern", "statement": "fmin/fmax order -0 below +0 and return the non-NaN operand (canonical NaN if both are NaN), raising invalid exactly for signaling NaNs; feq is quiet, flt/fle are signaling; fsgnj* only changes the sign bit.", "quantifier": "all pairs of bit patterns", "why_tests_cant": "2^128 pairs", "anchors": ["riscv/riscv_f_instructions.cc", "riscv/riscv_d_instructions.cc"]}
{"id": "C31", "title": "Float-to-integer conversion rounds correctly, saturates, and sets exact flags", "statement": "For every input and rounding mode the result is the correctly rounded integer if representable, otherwise the architected saturation value with invalid set; inexact is set iff the value was representable after rounding and not an integer.", "quantifier": "all bit patterns x 5 rounding modes x 4 integer types x 3 FP formats", "why_tests_cant": "2^64 x 5 x 4", "anchors": ["riscv/riscv_instruction_helpers.h: RiscVConvertFloatWithFflagsOp"]}
{"id": "C32", "title": "Half to wider format conversion is exact", "statement": "Converting half precision to single/double preserves the numerical value, infinities, signed zeros; NaNs become canonical with invalid iff signaling.", "quantifier": "all half bit patterns and both targets", "why_tests_cant": "exactness proof needs value semantics; parametric in target format", "anchors": ["riscv/riscv_zfh_instructions.cc: ConvertFromHalfFP"]}
{"id": "C33", "title": "Host and guest FP exception flags translate losslessly", "statement": "Translating guest flags to host status and back is the identity on the five flags; the translation is monotone and maps unions to unions.", "quantifier": "all flag sets / host status words", "why_tests_cant": "union/monotonicity is a law over all pairs", "anchors": ["riscv/riscv_fp_host_x86.cc"]}
{"id": "C34", "title": "fcsr, fflags and frm are views of one register", "statement": "After any history of writes through fcsr, fflags and frm, reading fcsr gives (frm << 5) | fflags, and the rounding mode used by dynamic-rounding instructions is frm, with frm in 5..7 flagged invalid.", "quantifier": "all finite sequences of writes through the three CSRs and host flag accruals", "why_tests_cant": "history dependent: unbounded sequences", "anchors": ["riscv/riscv_fp_state.cc"]}
{"id": "C35", "title": "vsetvl obeys the vl constraints", "statement": "After vset{i}vl{i}, vl = AVL if AVL <= VLMAX, else VLMAX, with VLMAX = VLEN*LMUL/SEW; rs1=x0, rd!=x0 selects VLMAX; rs1=rd=x0 keeps vl; vl never exceeds VLMAX.", "quantifier": "all AVL values, vtype settings, VLEN", "why_tests_cant": "2^64 AVLs x configurations", "anchors": ["riscv/riscv_vector_memory_instructions.cc: Vsetvl", "riscv/riscv_vector_state.cc: SetVectorType"]}
{"id": "C36", "title": "Vector element-wise operations touch exactly the active body elements", "statement": "An element-wise vector instruction updates destination element i to op(vs2[i], vs1[i]) iff vstart <= i < vl and its mask bit is set; every other byte of the register group is unchanged, and vstart is 0 afterwards.", "quantifier": "all vl, vstart, masks, element widths, LMUL, register contents, and all element functions", "why_tests_cant": "arbitrary lengths and masks", "anchors": ["riscv/riscv_vector_instruction_helpers.h: RiscVBinaryVectorOp and siblings"]}
{"id": "C37", "title": "Fixed-point averaging/scaling/clipping round per vxrm and saturate", "statement": "vaadd/vasub/vssr*/vnclip*/vsmul/vsadd/vssub return the mathematically exact result rounded according to vxrm and saturated to the element range, setting vxsat iff saturation occurred.", "quantifier": "all operands, shift amounts, rounding modes, element widths", "why_tests_cant": "2^128 operands x 4 modes", "anchors": ["riscv/riscv_vector_opi_instructions.cc", "riscv/riscv_vector_opm_instructions.cc", "riscv/riscv_vector_instruction_helpers.h: RoundOff"]}
{"id": "C38", "title": "Vector add-with-carry / subtract-with-borrow produce the exact carry-out", "statement": "vmadc/vmsbc set mask bit i to the carry (borrow) out of the SEW-bit addition (subtraction) with carry-in.", "quantifier": "all operands, carry-ins and element widths", "why_tests_cant": "2^128 operands", "anchors": ["riscv/riscv_vector_opi_instructions.cc: Vmadc, Vmsbc"]}
{"id": "C39", "title": "Mask-register logical operations respect vstart and vl", "statement": "vmand/vmor/... update exactly mask bits vstart <= i < vl; bits below vstart are unchanged and nothing changes if vstart >= vl.", "quantifier": "all vl, vstart, mask contents", "why_tests_cant": "arbitrary vl/vstart", "anchors": ["riscv/riscv_vector_opm_instructions.cc: BitwiseMaskBinaryOp"]}
{"id": "C40", "title": "Vector permutations move the architected elements", "statement": "vrgather, vslideup/down, vslide1up/down, vcompress place in each active destination element the element prescribed by the ISA (zero or scalar where prescribed).", "quantifier": "all vl, LMUL, masks, offsets, register contents", "why_tests_cant": "arbitrary sizes and offsets", "anchors": ["riscv/riscv_vector_permute_instructions.cc"]}
{"id": "C41", "title": "Vector loads place memory element i in register element i", "statement": "A unit-stride/strided/indexed vector load writes memory element i into destination element i for every active body element and leaves all others unchanged, for any vstart.", "quantifier": "all vl, vstart, masks, strides, element widths, memories", "why_tests_cant": "arbitrary sizes", "anchors": ["riscv/riscv_vector_memory_instructions.cc: VlStrided, VlIndexed, VlChild, WriteBackLoadData"]}
{"id": "C42", "title": "Segment loads and stores are inverse rearrangements", "statement": "A segment store followed by a segment load with the same configuration restores the register groups; field f of segment i goes to element i of register group f.", "quantifier": "all nf, vl, LMUL, SEW", "why_tests_cant": "arbitrary sizes; layout arithmetic", "anchors": ["riscv/riscv_vector_memory_instructions.cc: VlSegment*, VsSegment*, WriteBackSegmentLoadData"]}
{"id": "C43", "title": "vxrm/vxsat/vcsr are views of one state", "statement": "After any history of writes through vcsr, vxrm, vxsat or saturation events, vcsr reads (vxrm << 1) | vxsat and each view reads its own field.", "quantifier": "all finite write sequences", "why_tests_cant": "unbounded histories", "anchors": ["riscv/riscv_vector_state.cc"]}
{"id": "C44", "title": "Vector reductions fold exactly the active elements", "statement": "An integer reduction writes to element 0 the fold of the active elements with the scalar seed, and does nothing when vl = 0.", "quantifier": "all vl, masks, contents, all associative operators", "why_tests_cant": "arbitrary sizes", "anchors": ["riscv/riscv_vector_instruction_helpers.h: RiscVBinaryReductionVectorOp", "riscv/riscv_vector_reduction_instructions.cc"]}
{"id": "C45", "title": "Mask population/first/set-before-first semantics", "statement": "vcpop.m counts active set bits, vfirst.m returns the lowest active set index or -1, vmsbf/vmsif/vmsof/viota/vid follow their definitions on active elements and leave inactive elements unchanged.", "quantifier": "all vl, masks, contents", "why_tests_cant": "arbitrary sizes", "anchors": ["riscv/riscv_vector_unary_instructions.cc"]}
{"id": "C46", "title": "CLINT timer interrupt line equals mtime >= mtimecmp", "statement": "After every bus write, tick or reset, the machine timer interrupt line of the hart equals (mtime >= mtimecmp); mtime advances by one every `period` counter updates.", "quantifier": "all finite histories of ticks, 32/64-bit register writes and resets", "why_tests_cant": "unbounded histories", "anchors": ["riscv/riscv_clint.cc"]}
{"id": "C47", "title": "PLIC claim returns the best pending source and never loses or duplicates an interrupt", "statement": "A claim returns the pending source enabled for the context with maximal nonzero priority (lowest id on ties) or 0, whatever the threshold, and clears its pending bit and no other; each source is delivered to at most one claimer until that claimer completes it; a level source can be claimed again only after completion; a pending interrupt is never lost; a context's interrupt line is high exactly when an enabled pending source exceeds its threshold.", "quantifier": "all configurations and all finite histories of source level changes, register writes, claims and completions", "why_tests_cant": "unbounded histories; many contexts", "anchors": ["riscv/riscv_plic.cc: RiscVPlic, RiscVPlicGateway, RiscVPlicIrqInterface"]}
{"id": "C48", "title": "PLIC register map: reads return what was written at the same address", "statement": "Writing a PLIC priority/enable/threshold register through the bus and reading the same address returns the value; writes to one register do not modify another.", "quantifier": "all addresses in the PLIC aperture and all values", "why_tests_cant": "2^26 addresses x values", "anchors": ["riscv/riscv_plic.cc: Load/Store/Read/Write"]}
{"id": "C49", "title": "Instruction immediates survive encode and decode", "statement": "For each instruction format, extracting an immediate from a word in which it was inserted returns the (sign-extended, aligned) immediate; insertion leaves all other fields untouched.", "quantifier": "all immediates in range and all instruction words", "why_tests_cant": "2^32 words x 2^21 immediates x 20+ formats", "anchors": ["riscv/riscv_format32.bin_fmt", "riscv/riscv_format16.bin_fmt"]}
{"id": "C50", "title": "Assembled operands decode to the same operands", "statement": "The binary operand setters used by the assembler place each operand where the decoder's operand getters read it.", "quantifier": "all operand kinds and values", "why_tests_cant": "all operand values", "anchors": ["riscv/riscv_bin_setters.h", "riscv/riscv_getters.h"]}
{"id": "C51", "title": "Software breakpoints are transparent to memory", "statement": "Setting and clearing non-overlapping breakpoints in any order restores every byte of program memory; while set, memory differs from the original only at breakpointed instructions.", "quantifier": "all memories, address sets, finite sequences of set/clear", "why_tests_cant": "unbounded histories over arbitrary memories", "anchors": ["riscv/riscv_action_point_memory_interface.cc"]}
{"id": "C52", "title": "Single-stepping executes exactly one instruction per step and never replants cleared breakpoints", "statement": "Step(n) executes n instructions (or stops at a halt), pc ends at the next instruction to execute; an action point's instruction is executed once per visit; moving the pc or clearing a breakpoint after a stop does not alter program memory.", "quantifier": "all programs, breakpoint sets, step counts", "why_tests_cant": "unbounded executions", "anchors": ["riscv/riscv_top.cc: Step, StepPastBreakpoint, WriteRegister"]}
{"id": "C53", "title": "Branch trace holds the most recent distinct branches in order", "statement": "After any execution the branch trace buffer contains, in order, the last N run-length-compressed branches; resizing keeps the most recent entries.", "quantifier": "all finite branch histories and buffer sizes", "why_tests_cant": "unbounded histories; wrap-around", "anchors": ["riscv/riscv_top.cc: AddToBranchTrace, ResizeBranchTrace"]}
{"id": "C54", "title": "Debugger memory access stays within the physical address limit", "statement": "ReadMemory/WriteMemory transfer min(length, limit - address + 1) bytes, never touch an address above the limit, and write-then-read returns the written bytes.", "quantifier": "all addresses, lengths, limits, memories", "why_tests_cant": "2^64 addresses x lengths", "anchors": ["riscv/riscv_top.cc: ReadMemory, WriteMemory"]}
{"id": "C55", "title": "Supervisor interrupt views show exactly the delegated interrupts", "statement": "Reading sip (sie) shows bit i of mip (mie) when interrupt i is delegated to supervisor mode and 0 otherwise.", "quantifier": "all mip/mie contents and delegation masks", "why_tests_cant": "Every combination of delegation mask and pending set must be covered.", "anchors": ["riscv/riscv_xip_xie.cc: RiscVSIp::GetUint64, RiscVSIe::GetUint64"]}
{"id": "C56", "title": "No interrupt is lost", "statement": "Whenever a register update, device signal, trap or return leaves some interrupt pending, enabled, delegated to a level and that level enabled in the current mode, the simulator offers an interrupt at the next instruction boundary, and it is the highest-priority one.", "quantifier": "every hart state and every update of the pending, enable, status and delegation registers or of the privilege mode", "why_tests_cant": "the check is made at some updates and not at others; a missed combination shows up only in a specific order of events", "anchors": ["riscv/riscv_state.cc RiscVState::CheckForInterrupt, TakeAvailableInterrupt", "riscv/riscv_xip_xie.cc RiscVMIp::Set, RiscVMIe::Set", "riscv/riscv_xstatus.cc RiscVMStatus::Set"]}
{"id": "C57", "title": "Handler depth is zero when no interrupt handler is active", "statement": "The reported interrupt-handler nesting depth is zero in every state in which all interrupts taken have been returned from.", "quantifier": "every history of interrupts, exceptions and returns", "why_tests_cant": "the counter mixes interrupt entries with all returns, so only histories containing exceptions expose it", "anchors": ["riscv/riscv_state.cc RiscVState::TakeAvailableInterrupt", "riscv/riscv_state.h SignalReturnFromInterrupt", "riscv/riscv_priv_instructions.cc MRet, SRet"]}
{"id": "C58", "title": "The hart is always in user, supervisor or machine mode", "statement": "After every history of CSR writes, traps, interrupts and returns, the privilege mode is U, S or M, never the reserved encoding.", "quantifier": "every history of API operations", "why_tests_cant": "the reserved mode is only entered after a specific register value followed by a return", "anchors": ["riscv/riscv_priv_instructions.cc MRet", "riscv/riscv_xstatus.h set_mpp"]}
{"id": "C59", "title": "CSR instructions trap on missing and read-only CSRs", "statement": "A CSR instruction naming a CSR that does not exist, or writing a CSR whose number has both top bits set, raises an illegal-instruction exception and changes nothing.", "quantifier": "all CSR numbers, CSR sets, operands and modes", "why_tests_cant": "The set of CSR numbers times modes times operand forms is not enumerated by tests; absence of an exception is only visible for numbers the tests avoid.", "anchors": ["riscv/riscv_zicsr_instructions.cc:CheckCsrPermission", "riscv/riscv_zicsr_instructions.cc:RVZiCsrrw"]}
{"id": "C60", "title": "Table jumps go to the table entry", "statement": "cm.jt/cm.jalt jump to the even address stored in the indexed entry of the table at jvt, cm.jalt links the following instruction, and an inaccessible entry raises an exception without jumping or linking.", "quantifier": "all jvt values, indexes, memories, limits", "why_tests_cant": "The product of table base, index, memory contents and limits is unbounded; tests use one table.", "anchors": ["riscv/riscv_zc_instructions.cc:RiscVZCmtJt", "riscv/riscv_zc_instructions.cc:RiscVZCmtJalt", "riscv/riscv_jvt.h:RiscVJvtCsr"]}
{"id": "C64", "title": "Vector scalar moves transfer element 0", "statement": "vmv.x.s writes the sign-extended element 0 of vs2 to rd whatever vl is; vmv.s.x writes the low SEW bits of rs1 to element 0 of vd if vstart < vl and changes nothing else.", "quantifier": "all configurations, register contents and scalar values, RV32 and RV64", "why_tests_cant": "arbitrary contents and configurations", "anchors": ["riscv/riscv_vector_opm_instructions.cc", "riscv/riscv_vector_unary_instructions.cc: VmvToScalar, VmvFromScalar"]}
{"id": "C65", "title": "Whole-register moves copy the register group", "statement": "vmv1r/2r/4r/8r.v copies every element with index at least vstart from the source to the destination group, whatever vl and LMUL are, and changes nothing else.", "quantifier": "all group sizes, register numbers, vstart values, contents", "why_tests_cant": "arbitrary contents, overlapping groups, vstart", "anchors": ["riscv/riscv_vector_opi_instructions.cc: Vmvr"]}
{"id": "C66", "title": "Vector integer compares set exactly the active mask bits", "statement": "Each vmseq/vmsne/vmslt(u)/vmsle(u)/vmsgt(u) writes to every active body bit of vd the comparison of the source elements and leaves every other bit of vd, and all other registers, unchanged.", "quantifier": "all configurations, vstart, masks, contents, including vd overlapping the sources", "why_tests_cant": "arbitrary sizes and contents", "anchors": ["riscv/riscv_vector_opi_instructions.cc: Vmseq, Vmsne, Vmsltu, Vmslt, Vmsleu, Vmsle, Vmsgtu, Vmsgt", "riscv/riscv_vector_instruction_helpers.h: RiscVSetMaskBinaryVectorMaskOp"]}
{"id": "C67", "title": "Vector stores write exactly the active elements, in order", "statement": "A vector store (unit-stride, strided, indexed, segment) writes each active body element of the data register group to its address, in element order, changes no other byte of memory and no register, and clears vstart.", "quantifier": "all vl, vstart, masks, strides, indices (including overlapping targets), element widths, field counts, memories", "why_tests_cant": "overlapping scatters, arbitrary sizes and masks", "anchors": ["riscv/riscv_vector_memory_instructions.cc: VsStrided, VsIndexed, VsSegment, VsSegmentStrided, VsSegmentIndexed", "riscv/riscv_vector.isa: vse*, vsse*, vsuxei*, vsoxei*, vsseg*, vsuxseg*, vsoxseg*"]}
{"id": "C68", "title": "Mask and whole-register loads and stores copy bytes", "statement": "vlm.v/vsm.v transfer exactly ceil(vl/8) bytes, vlNre*.v/vsNr.v transfer exactly N registers, unmodified, from byte/element vstart on, whatever vtype is; nothing else changes.", "quantifier": "all vl, vstart, vtype, VLEN, register numbers, memories", "why_tests_cant": "arbitrary sizes and alignments", "anchors": ["riscv/riscv_vector_memory_instructions.cc: Vlm, Vsm, VlRegister, VsRegister"]}
{"id": "C69", "title": "Vector access faults are precise", "statement": "A vector load or store whose active element i (the first such) lies outside the physical address space raises an access fault with that address as trap value and vstart = i; elements before i may be done, later ones are not; inactive elements never fault.", "quantifier": "all masks, strides, indices, address limits", "why_tests_cant": "the faulting element can be anywhere", "anchors": ["riscv/riscv_state.cc: LoadMemory, StoreMemory (vector forms)", "riscv/riscv_vector_memory_instructions.cc"]}
{"id": "C70", "title": "Floating-point add, subtract, multiply, divide and square root are correctly rounded", "statement": "For every pair of register contents and every rounding mode in force (from the instruction or frm), fadd, fsub, fmul, fdiv and fsqrt of single and double precision write the exact result of the (unboxed) operands rounded once in that mode, NaN-boxed, the canonical NaN for NaN results, and raise exactly the flags IEEE 754 prescribes.", "quantifier": "all register contents, both formats, all rounding modes, any host that follows IEEE 754 in its own four modes", "why_tests_cant": "2^128 operand pairs times five modes; ties, subnormals and NaN payloads are sparse", "anchors": ["riscv/riscv_f_instructions.cc: RiscVFAdd, RiscVFSub, RiscVFMul, RiscVFDiv, RiscVFSqrt", "riscv/riscv_d_instructions.cc: RiscVDAdd, RiscVDSub, RiscVDMul, RiscVDDiv, RiscVDSqrt", "riscv/riscv_instruction_helpers.h: RiscVBinaryFloatNaNBoxOp, RiscVUnaryNaNBoxOp", "riscv/riscv_fp_host_x86.cc"]}
{"id": "C71", "title": "Fused multiply-add computes with a single rounding and the right signs", "statement": "fmadd, fmsub, fnmadd, fnmsub of single and double precision write (a*b)+c, (a*b)-c, -(a*b)-c, -(a*b)+c of the unboxed operands, rounded once in the mode in force, with the IEEE 754 sign of zero results, the canonical NaN for NaN results and exactly the flags IEEE 754 prescribes.", "quantifier": "all triples of register contents, both formats, all rounding modes", "why_tests_cant": "three operands; the wrong cases are exact cancellations, zero products and directed modes", "anchors": ["riscv/riscv_f_instructions.cc: RiscVFMadd, RiscVFMsub, RiscVFNmadd, RiscVFNmsub", "riscv/riscv_d_instructions.cc: RiscVDMadd, RiscVDMsub, RiscVDNmadd, RiscVDNmsub", "riscv/riscv_instruction_helpers.h: RiscVTernaryFloatNaNBoxOp"]}
{"id": "C72", "title": "Conversions to single and double are correctly rounded", "statement": "fcvt.s.w, fcvt.s.wu, fcvt.s.l, fcvt.s.lu, the four conversions to double, fcvt.s.d and fcvt.d.s write the value of their operand rounded once in the mode in force, NaN-boxed, the canonical NaN for a NaN operand, and raise exactly the flags IEEE 754 prescribes (NV for a signaling NaN).", "quantifier": "all integer and floating-point register contents, all rounding modes", "why_tests_cant": "2^64 inputs times five modes", "anchors": ["riscv/riscv_f_instructions.cc: RiscVFCvtSw, RiscVFCvtSwu, RiscVFCvtSl, RiscVFCvtSlu", "riscv/riscv_d_instructions.cc: RiscVDCvtDw, RiscVDCvtDwu, RiscVDCvtDl, RiscVDCvtDlu, RiscVDCvtSd, RiscVDCvtDs", "riscv/riscv_instruction_helpers.h: RiscVUnaryFloatNaNBoxOp, RiscVUnaryFloatOp"]}
{"id": "C61", "title": "Decoding an instruction word is unambiguous", "statement": "However the decoder chooses among the table rows that match an instruction word, the opcode it returns stands for one and the same instruction of the RISC-V manuals.", "quantifier": "every 32-bit and 16-bit word and every decoder (RV32G/RV64G with their compressed, Zb, V and V+Zb variants, RVM23, Zfh, Zvbb)", "why_tests_cant": "2^32 words times fifteen decoders; overlaps occur on single words", "anchors": ["riscv/*.bin_fmt: decoder, instruction group"]}
{"id": "C62", "title": "Every instruction of the implemented extensions is decoded", "statement": "A word that the RISC-V manuals define as an instruction of an extension the decoder implements (hints included) is decoded to an opcode standing for that instruction.", "quantifier": "every word and every decoder", "why_tests_cant": "2^32 words times fifteen decoders; the missing encodings are special operand values", "anchors": ["riscv/*.bin_fmt: instruction group"]}
{"id": "C63", "title": "No other word is decoded", "statement": "A word that decodes to an opcode is, according to the RISC-V manuals, an encoding of the instruction that opcode stands for; reserved encodings are rejected as illegal.", "quantifier": "every word and every decoder", "why_tests_cant": "2^32 words times fifteen decoders; a table that forgets one fixed bit accepts millions of reserved words", "anchors": ["riscv/*.bin_fmt: instruction group"]}
{"id": "C73", "title": "An instruction word does what the manual says", "statement": "When one of the simulators (RV32G, RV64G, the B variants, the combined ones) executes an instruction word, the general registers, floating-point registers, memory, pc and mstatus.FS afterwards are those the unprivileged manual prescribes for the instruction the word encodes: operands come from the fields the manual names, x0 stays 0, the pc advances by the instruction's size or to the target; a word that encodes no instruction raises illegal instruction and changes nothing else.", "quantifier": "All 2^32 instruction words, all register, memory and pc states, all eight simulators.", "why_tests_cant": "Tests execute semantic functions with operands wired by hand, or a few decoded words; they cannot relate every word, through decoder, operand getters and semantic function, to the manual.", "anchors": ["riscv/riscv32g.isa", "riscv/riscv64g.isa", "riscv/riscv_getters.h", "riscv/riscv_encoding_common.h", "riscv/riscv32_decoder.cc"]}
{"id": "C74", "title": "A program run from memory does what the manual says", "statement": "Running n instructions from any state executes, one after the other, the instructions stored in memory at the pc, each from the state its predecessor left, until n are done or an exception is raised; each fetch uses the current pc and the bytes at it, whatever the decode cache holds.", "quantifier": "All programs, initial states and step counts n; all decode-cache eviction choices.", "why_tests_cant": "Runs of arbitrary length, every cache history; a test runs one program.", "anchors": ["riscv/riscv_top.cc Step, Run", "riscv/riscv_generic_decoder.h RiscVGenericDecoder::DecodeInstruction", "riscv/riscv32_decoder.cc DecodeInstruction"]}
{"id": "C75", "title": "Modified code takes effect after fence.i", "statement": "If a hart stores to an address and then executes fence.i, later instruction fetches from that address see the stored bytes.", "quantifier": "All programs that modify their code, all cache histories.", "why_tests_cant": "Depends on whether the address was executed before, at any time in the history.", "anchors": ["riscv/riscv_state.cc FenceI", "riscv/riscv_zfencei_instructions.cc", "riscv/riscv_top.cc"]}
{"id": "C76", "title": "Atomic instructions read, modify and write as specified", "statement": "An atomic memory operation puts the sign-extended old memory word in rd and leaves op(old, rs2) in memory, nothing else changing; lr delivers the word; sc stores rs2 and delivers 0, or stores nothing and delivers a non-zero value. A misaligned address or one beyond the physical address limit raises the corresponding exception and accesses nothing.", "quantifier": "All words of the 22 atomic instructions (11 on RV32), all register and memory states, eight simulators, any atomic memory that honours its interface.", "why_tests_cant": "All operand values, register numbers and aq/rl combinations; faults for every address.", "anchors": ["riscv/riscv_a_instructions.cc AInstructionHelper", "riscv/riscv32g.isa", "riscv/riscv64g.isa"]}
{"id": "C77", "title": "Conversions to half precision are correctly rounded", "statement": "fcvt.h.s, fcvt.h.d, fcvt.h.w, fcvt.h.wu, fcvt.h.l and fcvt.h.lu write the NaN-boxed half-precision number nearest to the source in the selected rounding mode (ties, subnormals, overflow, infinities and canonical NaNs as the manual says) and raise exactly the flags the manual prescribes.", "quantifier": "every source bit pattern (2^32, 2^64), every rounding mode, static or dynamic, every IEEE 754 host", "why_tests_cant": "The conversion is computed with a division, a multiplication and bit reassembly; the boundary cases between normal, subnormal and overflowing results are spread over 2^64 inputs and cannot be enumerated.", "anchors": ["riscv/riscv_zfh_instructions.cc:ConvertToHalfFP", "riscv/riscv_zfh_instructions.cc:RiscVZfhCvtHs", "riscv/riscv_zfh_instructions.cc:RiscVZfhCvtHd", "riscv/riscv_zfh_instructions.cc:RiscVZfhCvtHw", "riscv/riscv_zfh_instructions.cc:RiscVZfhCvtHlu"]}
{"id": "C78", "title": "Half-precision arithmetic is correctly rounded", "statement": "fadd.h, fsub.h, fmul.h, fdiv.h, fsqrt.h and the fused multiply-adds write the exact result of their operands, rounded once to half precision in the selected mode, NaN-boxed, with canonical NaNs and exact flags.", "quantifier": "all pairs and triples of half-precision operands, every rounding mode, every IEEE 754 host", "why_tests_cant": "The result is rounded to single precision and then again to half: whether the two roundings ever differ from one is a question about all 2^32 or 2^48 operand combinations.", "anchors": ["riscv/riscv_zfh_instructions.cc:RiscVZfhFadd", "riscv/riscv_zfh_instructions.cc:RiscVZfhFdiv", "riscv/riscv_zfh_instructions.cc:RiscVZfhFmadd", "riscv/riscv_zfh.isa"]}
{"id": "C79", "title": "Vector floating-point arithmetic is IEEE arithmetic on every active element", "statement": "For vfadd, vfsub, vfrsub, vfmul, vfdiv, vfrdiv, vfsqrt, the fused multiply-adds and the widening forms (.vv, .vf, .wv, .wf), every active element of vd becomes the exact result of its operands rounded once in the mode in frm, with canonical NaNs; a scalar that is not NaN-boxed counts as the canonical NaN; fflags accumulates exactly the flags raised by active elements; inactive, prestart and tail elements and all other state stay, and vstart becomes 0.", "quantifier": "all element values, masks, vl, vstart, LMUL, VLEN, legal register groups, rounding modes, IEEE 754 hosts", "why_tests_cant": "The operand space is 2^64 to 2^192 per element, combined with every mask and configuration; the widening multiply-adds use two host operations, and whether that ever differs from one rounding is a question about all triples.", "anchors": ["riscv/riscv_vector_fp_instructions.cc:Vfadd", "riscv/riscv_vector_fp_instructions.cc:Vfwmaccvv", "riscv/riscv_vector_fp_unary_instructions.cc:Vfsqrtv", "riscv/riscv_vector_instruction_helpers.h:RiscVBinaryVectorOpWithFflags", "riscv/riscv_vector.isa"]}
{"id": "C80", "title": "Vector minimum, maximum, sign injection, classification and merge", "statement": "vfmin, vfmax, vfsgnj, vfsgnjn, vfsgnjx, vfclass and vfmerge write for every active element exactly what the corresponding scalar instruction writes (vfmerge: the scalar where the mask bit is set, the element of vs2 elsewhere), raise exactly the flags it raises and change nothing else.", "quantifier": "all element values including NaNs and signed zeros, masks, configurations", "why_tests_cant": "The special cases (both NaN kinds, opposite zeros) multiply with masks, groups and element positions.", "anchors": ["riscv/riscv_vector_fp_instructions.cc:Vfmin", "riscv/riscv_vector_fp_instructions.cc:Vfsgnj", "riscv/riscv_vector_fp_instructions.cc:Vfmerge", "riscv/riscv_vector_fp_unary_instructions.cc:Vfclassv", "riscv/riscv_vector.isa"]}
{"id": "C81", "title": "Vector floating-point conversions round and saturate as the specification says", "statement": "vfcvt, vfwcvt and vfncvt between integers and floating point, between the formats, the .rtz forms and vfncvt.rod write for every active element the operand rounded in the prescribed mode, saturated to the integer range (NaN: the largest integer), and raise exactly the invalid, inexact, overflow and underflow flags.", "quantifier": "all element values, all source and destination widths, signedness, rounding modes, masks, configurations", "why_tests_cant": "Errors show only at halfway cases, at the limits of the integer types that the format cannot represent, and in flags.", "anchors": ["riscv/riscv_vector_fp_unary_instructions.cc:Vfcvtxfv", "riscv/riscv_vector_fp_unary_instructions.cc:CvtHelper", "riscv/riscv_vector_fp_unary_instructions.cc:Vfncvtrodffw", "riscv/riscv_vector_fp_unary_instructions.cc:Vfwcvtffv"]}
{"id": "C82", "title": "Vector reciprocal estimates are correct to seven bits", "statement": "vfrsqrt7.v and vfrec7.v write, for every active element, an estimate whose relative error is below 2^-7, with the special results and flags of the specification for zeros, infinities, NaNs, negative operands and overflowing reciprocals.", "quantifier": "all single and double element values, rounding modes, masks, configurations", "why_tests_cant": "The estimates come from 128-entry tables indexed by exponent parity and leading bits, with separate normalisation of subnormal operands: one wrong entry affects one operand in 128.", "anchors": ["riscv/riscv_vector_fp_unary_instructions.cc:Vfrsqrt7v", "riscv/riscv_vector_fp_unary_instructions.cc:Vfrec7v", "riscv/riscv_vector_fp_unary_instructions.cc:RecipSqrt7Helper", "riscv/riscv_vector_fp_unary_instructions.cc:Recip7Helper"]}
{"id": "C83", "title": "Illegal vector floating-point configurations raise an exception and change nothing", "statement": "When frm holds a reserved rounding mode, or SEW is one for which the operands have no supported format, every vector floating-point instruction raises the illegal-instruction exception and changes no register, no flag and no vector CSR.", "quantifier": "all instructions, all states with a reserved frm or an unsupported SEW", "why_tests_cant": "The check is repeated in each semantic function; leaving it out of one changes nothing in ordinary programs.", "anchors": ["riscv/riscv_vector_fp_instructions.cc", "riscv/riscv_vector_fp_unary_instructions.cc", "riscv/riscv_fp_state.cc:SetRoundingMode"]}
{"id": "C84", "title": "Vector floating-point compares write the IEEE comparison as mask bits", "statement": "After vmfeq, vmfne, vmflt, vmfle, vmfgt or vmfge, .vv or .vf, every active bit of the destination mask register is the IEEE comparison of the two operand elements as they were before (a NaN compares unordered, the two zeros are equal), every other bit and register is unchanged, vstart is 0, and the invalid flag is raised exactly when an active pair holds a signaling NaN (equality) or any NaN (the others).", "quantifier": "all element values, SEW 32 and 64, all LMUL, vl, vstart, masks, register overlaps", "why_tests_cant": "Operand values, NaN kinds, masks, overlaps and vstart multiply; tests compare a few random vectors without NaNs.", "anchors": ["riscv/riscv_vector_fp_compare_instructions.cc", "riscv/riscv_vector_instruction_helpers.h:RiscVMaskBinaryVectorMaskOp"]}
{"id": "C85", "title": "Vector floating-point reductions fold the active elements in order", "statement": "vfredosum, vfredusum, vfredmin, vfredmax and vfwredusum write to element 0 of the destination the scalar vs1[0] combined with the active elements of vs2 one after the other, each step being the IEEE operation with its rounding and flags; the flags of all steps accumulate in fflags; nothing else changes, and nothing at all when vl is 0.", "quantifier": "all element values and scalars, SEW, LMUL, vl, masks, rounding modes, any host meeting IEEE 754", "why_tests_cant": "The result depends on the whole sequence of rounded partial results, of every length; a test checks one sequence.", "anchors": ["riscv/riscv_vector_fp_reduction_instructions.cc", "riscv/riscv_vector_instruction_helpers.h:RiscVBinaryReductionVectorOp"]}
{"id": "C86", "title": "Scalar floating-point moves to and from vector registers keep the value and box it", "statement": "vfmv.v.f writes the scalar (the canonical NaN if it is not boxed) to every element from vstart to vl and changes nothing else; vfmv.s.f does so for element 0 only; vfmv.f.s copies element 0, NaN-boxed, to the floating-point register at any vl and vstart; all reset vstart.", "quantifier": "all values, SEW, LMUL, vl, vstart, registers", "why_tests_cant": "A buffer overrun or a lost box shows only for particular vl, LMUL and register contents.", "anchors": ["riscv/riscv_vector_fp_unary_instructions.cc:Vfmvvf", "riscv/riscv_vector_fp_unary_instructions.cc:Vfmvsf", "riscv/riscv_vector_fp_unary_instructions.cc:Vfmvfs"]}
{"id": "C87", "title": "A semihosting call happens exactly at a marked ebreak", "statement": "An ebreak without the marker instructions around it, and an operation number that does not exist, change nothing; an operation that is not implemented sets a0 to -1 and changes nothing else; any other call changes a0, the host and, for SYS_READ, SYS_TMPNAM, SYS_GET_CMDLINE and SYS_HEAPINFO, memory; the exit callback runs exactly when the program reports application exit.", "quantifier": "all machine states, operation numbers, parameter blocks and hosts, both register widths", "why_tests_cant": "Programs with ordinary breakpoints near data that looks like the marker, and every wrong operation number, cannot be enumerated.", "anchors": ["riscv/riscv_arm_semihost.cc:RiscVArmSemihost::OnEBreak", "riscv/riscv_arm_semihost.cc:RiscVArmSemihost::IsSemihostingCall", "riscv/riscv_arm_semihost.cc:RiscVArmSemihost::SysException"]}
{"id": "C88", "title": "File handles of semihosting name the file they were opened for", "statement": "A handle that SYS_OPEN did not return is refused by every operation and the host is not touched; handles in use are distinct and each names the host file opened for it; SYS_CLOSE closes that file, releases what was allocated for it and invalidates the handle.", "quantifier": "all histories of opens, closes, transfers, program and host activity", "why_tests_cant": "It is about arbitrary interleavings of opens and closes with other descriptors of the host process.", "anchors": ["riscv/riscv_arm_semihost.cc:RiscVArmSemihost::SysOpen", "riscv/riscv_arm_semihost.cc:RiscVArmSemihost::SysClose"]}
{"id": "C89", "title": "Semihosting operations have the specified results", "statement": "SYS_WRITE, SYS_READ, SYS_SEEK, SYS_FLEN, SYS_ISTTY, SYS_OPEN, SYS_GET_CMDLINE, SYS_HEAPINFO and SYS_ERRNO hand the host exactly the arguments of the program, change exactly the specified memory and return the specified value.", "quantifier": "all histories, parameter blocks, hosts, both register widths", "why_tests_cant": "Results depend on what the host does (short reads, failures) and on addresses and offsets beyond those of a test.", "anchors": ["riscv/riscv_arm_semihost.cc:RiscVArmSemihost::SysRead", "riscv/riscv_arm_semihost.cc:RiscVArmSemihost::SysWrite", "riscv/riscv_arm_semihost.cc:RiscVArmSemihost::SysSeek", "riscv/riscv_arm_semihost.cc:RiscVArmSemihost::SysGetCmdline", "riscv/riscv_arm_semihost.cc:RiscVArmSemihost::SysHeapInfo"]}
{"id": "C90", "title": "The host-target interface performs the requested system call and responds", "statement": "A store changes nothing unless it covers the ready byte while that is 1 and the payload is for the system call device; an odd payload halts; lseek, read, write, pread, pwrite, openat, close and exit are performed with the target's arguments, the result replaces the call number and the response byte becomes 1; an opened file can be used through the descriptor returned; an unknown call reports an error.", "quantifier": "all stores, memories, parameter blocks, hosts and histories", "why_tests_cant": "Stores of every size and alignment around the ready byte, and histories of opened descriptors, are unbounded.", "anchors": ["riscv/riscv32_htif_semihost.cc:RiscV32HtifSemiHost::StoreEvent"]}
{"id": "C91", "title": "Execution goes on as prescribed across traps, returns and accesses to the CSRs that control traps", "statement": "Running n instructions from memory, including instructions that raise exceptions, ecall, ebreak, mret, sret, wfi and CSR instructions on mstatus, mie, mideleg, medeleg and the scratch, epc, cause, tval and tvec registers of machine and supervisor mode, leaves registers, memory, pc, privilege mode, status and trap registers as the privileged architecture prescribes, the handler being entered and left where it says.", "quantifier": "all programs, states, privilege modes, delegations, numbers of instructions, both register widths, all eight decoders", "why_tests_cant": "Programs, handlers and their nesting are unbounded; a mistake may only show after an instruction in a handler reached through another trap.", "anchors": ["riscv/riscv_top.cc:RiscVTop::Step", "riscv/riscv_state.cc:RiscVState::Trap", "riscv/riscv_state.cc:RiscVState::ECall", "riscv/riscv_priv_instructions.cc:RiscVPrivMRet", "riscv/riscv_zicsr_instructions.cc:RiscVZiCsrrw"]}
{"id": "C92", "title": "Interrupts are precise", "statement": "Whatever devices do with the interrupt lines while a program runs, an interrupt is taken only between two instructions, only if it is pending, enabled in mie and globally enabled for the mode it is delegated to; the handler is entered with the address of the next instruction as return address and nothing else changes; an interrupt that meets the conditions is taken.", "quantifier": "all programs, states and schedules of interrupt line changes", "why_tests_cant": "The number of interleavings of instructions and line changes is unbounded.", "anchors": ["riscv/riscv_top.cc:RiscVTop::Step", "riscv/riscv_state.cc:RiscVState::TakeAvailableInterrupt", "riscv/riscv_state.cc:RiscVState::CheckForInterrupt"]}
{"id": "C93", "title": "F and D instruction words do what the manual says", "statement": "Executing any instruction word of the F or D extension other than loads and stores (arithmetic, fused multiply-add, square root, minimum, maximum, sign injection, comparison, classification, conversion, move), with any registers and any rounding mode, writes to the register the word names the value the manual prescribes for the registers the word names, accrues the prescribed flags, advances the pc by 4, marks the floating-point state dirty and changes nothing else; with the floating-point unit off or a reserved rounding mode in force it raises an illegal-instruction exception and changes nothing.", "quantifier": "all instruction words, register contents, rounding modes, flags and floating-point states; four simulators", "why_tests_cant": "The values depend on up to three 64-bit registers, the word and the rounding mode; a swapped operand, a wrong table row or a wrong width shows only for particular words and values.", "anchors": ["riscv/riscv32g.isa", "riscv/riscv64g.isa", "riscv/riscv_encoding_common.h", "riscv/riscv_getters.h", "riscv/riscv_f_instructions.cc", "riscv/riscv_d_instructions.cc", "riscv/riscv_instruction_helpers.h:RiscVBinaryFloatNaNBoxOp"]}
{"id": "C94", "title": "Operands that name symbols get the right relocation entry", "statement": "When the RV64G assembler encodes a relocatable operand that names a symbol, with a modifier such as %hi(sym) or without, it emits exactly the relocation entry of the RISC-V psABI for that kind of operand and modifier, with exactly that symbol; a modifier that does not fit is rejected, and operands that are numbers yield no entry.", "quantifier": "every relocatable operand of riscv64g.isa, every symbol, every modifier, every arrangement of blanks, every text that is a number", "why_tests_cant": "A test assembles a few symbols; whether the regular expression captures the right symbol depends on every character of an unbounded text, and the operands without relocation show only at link time.", "anchors": ["riscv/riscv_bin_setters.cc:kSymRe", "riscv/riscv_bin_setters.cc:RelocateAddiIImm12", "riscv/riscv_bin_setters.h:AddRiscvSourceOpRelocationSetters", "riscv/riscv64g_bin_encoder_interface.cc:AppendSrcOpRelocation", "riscv/riscv64g.isa"]}
{"id": "C95", "title": "misa is the same for every program and in both views", "statement": "Whatever value misa is given at construction or by the embedding program, no sequence of CSR instructions changes it; reads of 32 and 64 bits give the same MXL and the same letters in the layout of their width; the simulator's own tests for S, C and the width follow from it.", "quantifier": "every initial value of 32 or 64 bits, every sequence of writes, bit sets, bit clears and programmatic sets with all values", "why_tests_cant": "A test tries one value; the two layouts are converted into one another bit by bit, and constancy is a property of all histories.", "anchors": ["riscv/riscv_misa.cc:RiscVMIsa", "riscv/riscv_misa.cc:Xlen", "riscv/riscv_csr.h:RiscVSimpleCsr", "riscv/riscv_state.cc:kMisaInitialValue", "riscv/rv32g_sim.cc"]}
{"id": "C96", "title": "GDB and the simulator mean the same register by the same number", "statement": "For every combination of register widths, the target description sent to GDB lists the registers of the target, each number GDB derives from it stands for the same register in the simulator and is transferred with the width described; the description for the requested widths is returned after every history of requests; and every text survives the escaping of the remote protocol.", "quantifier": "every combination of widths, every register number, every history of requests, every text", "why_tests_cant": "The number GDB uses follows from the order of the description, a wrong instance shows only after particular earlier requests, and escaping must be right for every text.", "anchors": ["riscv/riscv_gdb_debug_info.cc:RiscVGdbDebugInfo::Instance", "riscv/riscv_gdb_debug_info.cc:EscapeString", "riscv/riscv_gdb_debug_info.h:GetRegisterByteWidth", "riscv/riscv_gdb_debug_info.h:RiscVGdbRegisterEnum"]}
{"id": "C97", "title": "Every CSR number is the register the manual has there", "statement": "Construction of the CSR set succeeds on RV32 and RV64, with and without floating point and vectors. Every 12-bit number at which a register is found holds the register that the manual has at that number, every register of the manual's tables for the implemented extensions is found at its number and name, the registers the manual requires exist, and each high half of a counter on RV32 is the high half of the counter named without the h.", "quantifier": "All CSR numbers and names, both widths, all four combinations of floating-point and vector support.", "why_tests_cant": "Tests look up a few registers; a wrong number in the table goes unnoticed until a program uses that register.", "anchors": ["riscv/riscv_state.cc:CreateCsrs", "riscv/riscv_csr.h:RiscVCsrEnum", "riscv/riscv_pmp.h:CreatePmpCsrs", "riscv/riscv_fp_state.cc", "riscv/riscv_vector_state.cc"]}
{"id": "C98", "title": "The memory trace tells what was read and written", "statement": "After any sequence of loads, stores and clearings of the trace, the text of the trace can be read back as exactly the reads and writes since the last clearing, in order, with address, size and value of every write, element by element for vector accesses and active elements only; and the memory behind has received every call unchanged and in order.", "quantifier": "All sequences of calls, addresses, sizes, values, masks and numbers of elements.", "why_tests_cant": "The text is a concatenation over an unbounded history; that it can be split again unambiguously is a property of all histories and values.", "anchors": ["riscv/riscv_test_mem_watcher.cc:RiscVTestMemWatcher::Load", "riscv/riscv_test_mem_watcher.cc:RiscVTestMemWatcher::Store", "riscv/riscv_test_mem_watcher.h:clear_trace_str"]}
{"id": "C99", "title": "Renode accesses the register it means", "statement": "Reading or writing a register by number through the Renode interface accesses the register that has this number in the debug specification (pc, x0 to x31, f0 to f31), or a vector register by a number of its own, and any other number is an error; the list of registers given to Renode has the right number, name, width and read-only flag at every index, and every name is a terminated string within the buffer.", "quantifier": "All 32-bit register numbers, all indices, all buffer lengths and contents, both widths.", "why_tests_cant": "Tests access a few registers by number; two registers with one number, or a buffer as short as the name, are not among them.", "anchors": ["riscv/riscv_debug_info.h:DebugRegisterEnum", "riscv/riscv_debug_info.cc:RiscVDebugInfo", "riscv/riscv_renode_register_info.cc", "riscv/riscv_renode.cc:ReadRegister", "riscv/riscv_renode.cc:GetRenodeRegisterInfo"]}
{"id": "C100", "title": "The register $mode is the privilege mode", "statement": "After any history of accesses to $mode, by 32-bit and 64-bit writes, setting and clearing of bits, the debugger, and of mode changes by traps and returns, the privilege mode is the one the last accesses give, bit by bit, it is a mode of the manual (user, supervisor or machine), and every way of reading $mode shows it.", "quantifier": "All histories, all argument values of both widths.", "why_tests_cant": "A history of any length mixes masked and raw accesses of two widths; tests write a legal mode once.", "anchors": ["riscv/riscv_sim_csrs.cc:RiscVSimModeCsr", "riscv/riscv_sim_csrs.h", "riscv/riscv_csr.h:RiscVSimpleCsr", "riscv/riscv_top.cc:WriteRegister"]}
