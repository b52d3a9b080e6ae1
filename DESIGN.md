# Formal model of google/mpact-riscv: design

## Approach

The C++ sources under `/repo/riscv` were read as text and transcribed, function by function, into small total Gallina definitions
(files `rocq/theories/*Model.v`; every definition cites the file and lines it models and says where it simplifies).
Machine words are `Z` with explicit `mod 2^w`; undefined behaviour of C++ that the code can reach is a distinct outcome (`None`).
What each property *means* is in `*Spec.v` files which do not import the models. Proofs are in `*Proofs.v`.
`*Props.v` hold only the final theorems, their non-vacuity examples and `Print Assumptions`.

A property that is false of the code is reported by a theorem `..._refuted` giving a reachable witness, next to the strongest
`..._partial` theorem that does hold.

## Plan per property

| id | property | how it is modelled and proved |
|---|---|---|
| C01 | Masked CSR writes never leak outside the write mask | Model RiscVSimpleCsr<T> as (width, masks, value); ops as an inductive type; prove a per-bit flip-flop specification by induction over op lists. |
| C02 | CSR table: lookups by name and by number always agree | Model the two flat_hash_maps as association lists with the code's checks; prove refinement to the list of live (name,index) pairs by induction over op histories. |
| C03 | A shadow CSR writes through only its own bits | Model RiscVShadowCsr over a simple base CSR; bitwise proof. |
| C04 | mstatus fields are independent and commit atomically at Submit | Model RiscVMStatus (value, buffer, mask); generic field table (offset,width); prove get/set laws from testbit lemmas, then induction over setter lists. Setters with WARL conditions (mpp/spp) carry the condition. |
| C05 | Supervisor status view cannot read or modify machine-only fields | Model RiscVSStatus read/write; prove the integrity half; refute the confidentiality half. |
| C06 | sip/sie views: software can set and clear exactly its own writable bits | Model sip/sie Set; refute (missing complement), prove the partial statement (setting bits). |
| C07 | External supervisor interrupt line and the software SEIP bit stay separate | Model RiscVMIp with ext_seip; refute separation with a concrete history; partial for histories without field updates while the line is high. |
| C08 | 64-bit counter read/write law | Model RiscVCounterCsr<T>; modular arithmetic. |
| C09 | Low/high counter halves on RV32 form one 64-bit counter | Model the Low/High classes and Performance variants; prove pair law; refute the trap decrement on RV32. |
| C10 | Trap entry records cause, value and return address and masks interrupts in the right mode | Model RiscVState::Trap on a record of CSRs built from the mstatus/xip models; prove field by field against a separate spec record. |
| C11 | Traps never lower privilege | Same model; prove dest mode ordering. |
| C12 | Exceptions ignore vectored mode; interrupts are vectored | Same model; refute for exceptions with tvec mode 1; prove for interrupts and for direct mode. |
| C13 | Return from trap undoes trap entry | Compose Trap and mret/sret models; prove restoration; nesting by induction on a well-bracketed trace. |
| C14 | Return-from-trap instructions are privilege checked | Model PrivMRet/PrivSRet for RV32/RV64; prove / refute per xlen. |
| C15 | Only the highest-priority enabled pending interrupt is offered | Model CheckForInterrupt/PickInterrupt; bitwise proof against declarative priority spec. |
| C16 | An interrupt taken is one that is still pending and enabled | State machine with available flag; refute; partial: if nothing changes between check and take. |
| C17 | Interrupt handler depth counts interrupts taken minus returns | Counter invariant by induction over histories. |
| C18 | CSR instructions respect the privilege encoded in the CSR number | Model CheckCsrPermission and the csrr* semantic functions over the CSR table. |
| C19 | No memory access beyond the configured physical address limit | Model LoadMemory/StoreMemory with an access log. |
| C20 | Base integer ALU results equal the ISA definition for all operands | Model each semantic function on unsigned machine words; spec on Z arithmetic/testbit. |
| C21 | Multiply/divide results equal the ISA definition for all operands | Same; div/mod via Z.quot/Z.rem; UB (signed overflow) as None. |
| C22 | Control-transfer instructions compute the architected target and link | Model jal/jalr/BranchConditional; prove; refute branch trap value. |
| C23 | Store followed by load returns the stored value, extended | Byte-map memory; little-endian codec; prove round trip + frame. |
| C24 | Bit-manipulation instructions compute their bitwise definitions | Model each function; spec bitwise via testbit / counting. |
| C25 | Carry-less multiply yields the polynomial product over GF(2) | Model loops as recursive functions over fuel; spec = xor-sum of shifted operands; induction. |
| C26 | Every 32-bit-result instruction defines all 64 bits of rd on RV64 | Model destination write as byte-overwrite of the old register; relational theorem; refute for cpopw / fclass.s. |
| C27 | cm.push followed by cm.pop is the identity on registers and restores sp | Model push/pop on register map + byte memory with LoadMemory/StoreMemory; prove round trip for all rlist. |
| C28 | NaN boxing of narrow floats | Bit-level model; prove single, refute half. |
| C29 | fclass returns exactly one of ten bits and the right one | Parametric in (exponent width, fraction width). |
| C30 | FP min/max/sign-injection/compare agree with the ISA on every bit pattern | Bit-level model; comparison through a sign-magnitude order key; spec through scaled integer values. |
| C31 | Float-to-integer conversion rounds correctly, saturates, and sets exact flags | Model the integer algorithm on (sign, exp, sig); spec: rational value as integer * 2^e, rounding defined by inequalities. |
| C32 | Half to wider format conversion is exact | Parametric in target format; value equality as scaled integers. |
| C33 | Host and guest FP exception flags translate losslessly | Model tables as lists; laws by testbit reasoning / exhaustive finite sweep lifted by forallb_forall. |
| C34 | fcsr, fflags and frm are views of one register | State machine of the three CSRs, rounding mode and host status word (x86 and Arm); induction over histories; refute sticky invalid, csrrs on fcsr, vector rounding. |
| C35 | vsetvl obeys the vl constraints | Model Vsetvl/SetVectorType; prove vl law, refute rs1=rd=x0 and truncated AVL cases. |
| C36 | Vector element-wise operations touch exactly the active body elements | Model the nested register/element loop over byte registers; prove extensional characterisation for arbitrary element function. |
| C37 | Fixed-point averaging/scaling/clipping round per vxrm and saturate | Model helpers with wide arithmetic; spec: floor/rounding by vxrm on exact integers. |
| C38 | Vector add-with-carry / subtract-with-borrow produce the exact carry-out | Model Vmadc/Vmsbc incl. the 64-bit path; prove 8/16/32, refute 64. |
| C39 | Mask-register logical operations respect vstart and vl | Model BitwiseMaskBinaryOp bytes; prove for aligned situation, refute others. |
| C40 | Vector permutations move the architected elements | Model each permute helper; prove/refute. |
| C41 | Vector loads place memory element i in register element i | Model address generation and WriteBackLoadData; prove vstart=0; refute vstart>0. |
| C42 | Segment loads and stores are inverse rearrangements | Model segment layout arithmetic; prove when the group is full; refute otherwise. |
| C43 | vxrm/vxsat/vcsr are views of one state | State machine; induction. |
| C44 | Vector reductions fold exactly the active elements | Model reduction loop; prove fold; refute vl=0. |
| C45 | Mask population/first/set-before-first semantics | Model vcpop/vfirst/vms*f/viota/vid; prove/refute. |
| C46 | CLINT timer interrupt line equals mtime >= mtimecmp | State machine of RiscVClint with set_mtip calls as outputs; invariant; refute for mtime writes. |
| C47 | PLIC claim returns the best pending source and never loses or duplicates an interrupt | State machine of the PLIC (PlicModel); invariants relating enable bits, the priority queues and the per-context source lists over all histories; claim, delivery-once and never-lost theorems under the side condition `good` (PlicHist); refutations of the line and of the excluded histories. |
| C48 | PLIC register map: reads return what was written at the same address | Model address decoding of Read/Write; refute; partial where they agree. |
| C49 | Instruction immediates survive encode and decode | A generic field-concatenation model of bin_fmt overlays (insert/extract) proved inverse for all well-formed layouts, instantiated by all formats. |
| C50 | Assembled operands decode to the same operands | Table of setter formats vs getter formats; prove agreement, refute kFrs2, kICssUimm6x4/x8 and kRm. |
| C51 | Software breakpoints are transparent to memory | Byte memory + instruction map; induction over set/clear histories with non-overlap. |
| C52 | Single-stepping executes exactly one instruction per step and never replants cleared breakpoints | Model RiscVTop::Step/StepPastBreakpoint over an abstract instruction executor; prove the no-action-point case; refute the others. |
| C53 | Branch trace holds the most recent distinct branches in order | Ring buffer refinement to a list of runs; induction; resize theorem. |
| C54 | Debugger memory access stays within the physical address limit | Model ReadMemory/WriteMemory clamps. |
| C55 | sip/sie show only delegated interrupts | xip model; refute (mask is or-ed, not and-ed). |
| C56 | No interrupt is lost | Hart model; invariant "an eligible interrupt is offered" after each kind of update; refute for the updates that do not check. |
| C57 | Handler depth is zero when idle | Hart model; refute (exception return decrements). |
| C58 | The hart is always in U, S or M mode | Hart model; step invariant while MPP is not 2; refute otherwise. |
| C59 | CSR instructions trap on missing and read-only CSRs | Same model as C18; refute both halves; what remains true is proved as partial. |
| C60 | Table jumps go to the table entry | Model RiscVZCmtJtHelper and jvt; prove the target; refute evenness and fault behaviour. |
| C61 | Decoding is unambiguous | Transcribe all rows of the .bin_fmt groups; write the manuals' encodings independently; a verified cube sweep visits every combination of rows and encodings; refute for RVM23. |
| C62 | Every instruction of the implemented extensions is decoded | Same tables and sweep; the exact set of words missed by each decoder is part of the statement; refute each incomplete decoder. |
| C63 | Nothing else is decoded | Same; the exact set of words accepted wrongly is part of the statement; refute each loose decoder. |
| C64 | Vector scalar moves transfer element 0 | Model VmvToScalar/VmvFromScalar; prove RV32 with vl>0; refute vl=0 and RV64. |
| C65 | Whole-register moves copy the register group | Model Vmvr; prove for whole-register vstart; refute mid-register vstart. |
| C66 | Vector integer compares set exactly the active mask bits | Loop invariant over the mask bytes of vd. |
| C67 | Vector stores write exactly the active elements, in order | Model the Vs* functions and the scatter loop; prove vstart=0; refute vstart>0, unordered indexed segment stores, signed indices. |
| C68 | Mask and whole-register loads and stores copy bytes | Model Vlm, Vsm, VlRegister, VsRegister; prove byte-for-byte copies; refute resumed vlm/vlNr. |
| C69 | Vector access faults are precise | Model the address check of LoadMemory/StoreMemory; prove trap value and unchanged state; refute masked-off faults and vstart. |
| C70 | fadd/fsub/fmul/fdiv/fsqrt are correctly rounded | IEEE 754 arithmetic specified on integers (one smallest quantum per format); host operations are a parameter bounded by `host_ok`; prove modes 0-3 for all register contents; refute RMM. A float square root taken in double precision and narrowed is covered by the double-rounding theorem for square roots (SqrtTwice.v). |
| C71 | Fused multiply-add: one rounding, right signs | Same host parameter; single family for boxed operands, double family with its special-case ladder; refute unboxed operands, zero-sign, negated-rounding and signaling cases. |
| C72 | Conversions to single and double are correctly rounded | Same host parameter; refute the missing NV of signaling NaNs and RMM. |
| C73 | One instruction word does what the manual says | Join the layers: decode tables, the .isa table (opcode to semantic function and operands), the operand getters of the decoders, and the semantic functions already modelled. Specification: per mnemonic, the manual's effect on registers, memory, pc; proved for the eight simulators by a verified table check. Excluded words, instructions and states are listed in `regular`; refute them. |
| C74 | A program run from memory does what the manual says | Step(n) with fetch, address check, decode cache, next pc; induction on n; the decode cache is harmless while the run does not store to executed instructions. Refute wrap-around of the pc. |
| C75 | Modified code takes effect after fence.i | Same run model; refute (fence.i leaves the decode cache alone). |
| C76 | Atomic instructions read, modify and write as specified | Same tables for the A rows; the atomic memory of mpact-sim is a parameter bounded by `atomic_ok` (shown satisfiable); prove aligned accessible addresses; refute misaligned and out-of-range addresses for every atomic memory. |
| C77 | Conversions to half precision are correctly rounded | ConvertToHalfFP (divide, multiply, reassemble) over the host parameter, against the same IEEE specification; rounding characterised as choice between neighbouring numbers; prove modes 0-3 for all inputs; refute the spurious underflow flag and RMM. |
| C78 | Half-precision arithmetic is correctly rounded | Widen, single-precision host operation, narrow: a general double-rounding theorem plus per-operation arguments (exact product, sum and quotient cannot fall on a half midpoint; a rounded square root that is a midpoint is exact); refute boxing of results, RNE and flags of fused multiply-add, RMM. |
| C79 | Vector floating-point arithmetic is IEEE arithmetic on every active element | Semantic functions and templates over the same host parameter as C70; one loop theorem for all element functions (elements, masks, register groups, flag accumulation), then each element function against the IEEE specification; exactness of single-to-double conversion and of double products of singles shows that the two-operation widening multiply-adds round once; refute NaN patterns, RMM, unboxed scalars, vfwadd.w/vfwsub.w and the flag of vfsqrt. |
| C80 | Vector minimum, maximum, sign injection, classification and merge | Same loop theorem; the element functions against the specification of C31/C33; refute vfmerge. |
| C81 | Vector floating-point conversions | Same; CvtHelper's clamping against `to_int`; prove exact elements; refute rounding, the flag of vfwcvt, round-to-odd, and exhibit the undefined conversion at the upper limit. |
| C82 | Reciprocal estimates are correct to seven bits | The tables and exponent arithmetic of Recip7Helper and RecipSqrt7Helper; error bound for all significands by interval reasoning per table entry, lifted to all exponents and both formats; refute the wrong table entry, missing and spurious flags, subnormal results. |
| C83 | Illegal vector floating-point configurations raise an exception and change nothing | Reserved frm, unsupported SEW: proved for all states; refute for instructions that do not look at frm. |
| C84 | Vector floating-point compares write the IEEE comparison as mask bits | The mask-writing template of C66 with the floating-point comparison of C30; refute the invalid flag. |
| C85 | Vector floating-point reductions fold the active elements in order | The accumulation loop, by induction over the elements: the accumulator of the host stays equal to the specified one up to NaN payload. Refute signaling NaNs and signed zeros, RMM, vl = 0, LMUL = 8 when widening. |
| C86 | Scalar floating-point moves to and from vector registers keep the value and box it | The three functions over the register file; a write outside the destination buffer is undefined behaviour. Refute groups, unboxed scalars, vstart. |
| C87 | A semihosting call happens exactly at a marked ebreak | OnEBreak over a record of memory, a0, a1, handle map and an abstract host; case analysis of the operation table. |
| C88 | File handles of semihosting name the file they were opened for | Inductive histories with ghost lists of live and closed handles; an invariant ties them to the handle map and to the descriptors open on the host. Refute closing: the test on the result of close is inverted. |
| C89 | Semihosting operations have the specified results | Each operation against a specification written from the ARM document; partial where it agrees, refuted on a small host where not. |
| C90 | The host-target interface performs the requested system call and responds | StoreEvent over memory, descriptor map and abstract host; each call against a specification; invariant that the map never grows. |
| C91 | Execution goes on as prescribed across exceptions, calls, returns and accesses to the CSRs that control traps | The step model of C74 joined with the trap model of C10-C17, ecall, ebreak, mret, sret, wfi and the CSR instructions; the specification is a transition system over registers, memory, privilege, status, trap, interrupt enable and delegation registers; simulation, induction on the number of instructions. Refute misaligned return addresses and the reserved mode in MPP. |
| C92 | Interrupts are precise | The same machine with devices driving the lines during each instruction: an interrupt is taken between instructions only, enabled in mie and globally, with the next instruction as return address; what devices raise is taken. Refute that it still has to be pending. |
| C93 | F and D instruction words do what the manual says | The rows of the F and D computational instructions of the .isa files with the getters, composed with the decoders (C61-C63) and the value models (C28-C31, C70-C72); a boolean comparison of each row with the instruction, evaluated once per simulator; the outcome as a relation. Refute FS Off, reserved rounding modes, FS Dirty. |
| C94 | Operands that name symbols get the right relocation entry | The six relocation functions, their table, the operands marked %reloc in riscv64g.isa, and the regular expression as a list of parts with all its matches in order of preference; the texts that name a symbol and the psABI types are specified apart. Induction over the text for the first match. Refute the operands without a function, one-character symbols, blanks after the symbol and modifiers that do not fit. |
| C95 | misa is the same for every program and in both views | RiscVMIsa with the methods it inherits, the initial values and the flag --misa; an abstract pair of MXL and letters with its layouts; refinement over all histories of accesses. Refute Xlen, the letter U, and 32-bit programmatic sets. |
| C96 | GDB and the simulator mean the same register by the same number | riscv_gdb_debug_info: the register map, the <reg> elements of the description with GDB's numbering rule, the cache of instances, escaping. Evaluation over the finitely many combinations of widths, an invariant over histories of requests, induction over texts. Refute v0 to v31, widths of other registers and wide vectors. |
| C97 | Every CSR number is the register the manual has there | CreateCsrs, CreatePmpCsrs, the floating-point and vector registers, for both widths, added through the table of C02. Lookup of any number reduced to membership, then evaluation over the table for each of the eight configurations; high halves traced to their counters. Refute instreth, mhpmcounter3h to 31h and registers that are required but absent. |
| C98 | The memory trace tells what was read and written | RiscVTestMemWatcher: text appended by each call, the call passed on, clearing. A separate reader (words, hexadecimal numbers) recovers the events; induction over histories, words and digits. Refute vector stores with different elements, inactive elements and odd sizes. |
| C99 | Renode accesses the register it means | riscv_debug_info (numbers and names), the list of registers for Renode, ReadRegister, WriteRegister and GetRenodeRegisterInfo up to the name passed on. Lookup reduced to membership, evaluation over the 65 registers, induction over names for strncpy. Refute vector registers, widths on RV64 and short buffers. |
| C100 | $mode is the privilege mode | RiscVSimModeCsr with the masked accesses it inherits, the raw access of the debugger and mode changes by the hart. Invariant over histories, bit by bit. Refute raw writes beyond two bits and the reserved mode 2. |

## Trusted base

* Coq 8.16.1 kernel (and `vm_compute` where a finite table is swept).
* `Print Assumptions` of every theorem: see the end of this file (target: `Closed under the global context`).
* The hand transcription C++ -> Gallina.
* Semantics of the dependency mpact-sim, which is not in the sandbox, as used by the code: a register source operand returns the register value
  (sign- or zero-extended when read at a wider type); `DataBuffer::Set<T>(i,v)` overwrites exactly `sizeof(T)` bytes at index i; `CopyDataBuffer` starts from the
  register's current contents; `Submit` makes the buffer the register's contents; a `SimpleCounter` increments by one.
* C++20 integer semantics (two's complement, arithmetic right shift of negative values, promotion to int), little-endian host.
* Memory is the byte store of mpact-sim: loads and stores of n bytes are little-endian and touch exactly those bytes; a masked vector access visits the
  active elements in order (Memory.v, AccessModel.v).
* The PLIC's `absl::btree_multimap` keeps equal keys in insertion order; the textual configuration parsed with RE2 is modelled by its parsed form.
* Debugger (DbgModel.v): mpact-sim's ActionPointManager/BreakpointManager are taken as their interface says (setting an existing or clearing a missing
  breakpoint is an error without effect; setting calls WriteBreakpointInstruction, clearing WriteOriginalInstruction); the decode cache agrees with memory;
  program memory is changed only by the debugger; every instruction executes at its first attempt; no halt request comes from another thread; the
  processor itself is a parameter (`cpu`).
* Decode tables (DecModel.v): the generator turning instruction groups into decoders belongs to mpact-sim and is modelled by its documented meaning: the decoder returns the opcode of some row all of whose constraints hold, or none; which of several is left open. The manuals' encodings are DecManual.v (generated from a listing written from the manuals, not from /repo). Not modelled: the .isa files that map an opcode to its semantic function and disassembly, and group RiscVZve32xInst32, which no decoder uses.
* Instructions (StepModel.v): the generator turning the .isa files into instruction objects belongs to mpact-sim and is modelled by its documented meaning: each
  opcode has one semantic function and the operand names listed, each resolved by the decoder's getter of that name; a child instruction runs first. A destination of
  latency 0 or 1 is written before the next instruction executes. mpact-sim's DecodeCache keeps an entry from an address's first execution on, may drop any entry, and
  is invalidated by nothing modelled here. No interrupt, breakpoint or halt request occurs during a run. Covered: the I, M, C, Zba, Zbb, Zbc, Zbs instructions, fence, fence.i and the loads
  and stores of F and D; not the system, CSR, atomic, vector and floating-point arithmetic instructions (which have their own models above).
* Atomic instructions (AmoModel.v): mpact-sim's AtomicMemory is an argument; theorems assume `atomic_ok`. Whether and when a store-conditional succeeds (reservations) is
  decided there and not claimed.
* Formats (FmtModel.v): the generator turning `.bin_fmt` files into Extract/Insert functions belongs to mpact-sim and is modelled by its documented meaning:
  fields listed from the most significant bit, overlays concatenated from the most significant piece, Insert skips constants. `absl::SimpleAtoi`/`SimpleHexAtoi`
  reject what the target type cannot hold; the symbol resolver is an argument. Relocation functions, relocations and the opcode (mnemonic) tables of the
  assembler are not modelled. FmtLink.v is the hand-written table naming the manual operand each field implements.
* Vector configuration (VcfgModel.v): vtype_ has no initialiser, so its initial value is a parameter; reading rs1/rs2 at uint32_t truncates.
* Element-wise vector instructions (VelemModel.v): the register file is one byte memory, register r at r*vlenb. The value of a scalar or immediate operand at a given
  width is returned by mpact-sim and is the operand reduced to that width. DataBuffer copy/submit act as copy and assignment (latency 0). A source read past the
  operand's register list is undefined (`None`). vstart is a non-negative int (writing 2^31 or more to vstart is outside the theorems). Floating-point vector
  instructions are not modelled.
* Mask-producing, mask-only, reduction and move vector instructions (VmaskModel.v): same conventions. `SameSignedType` and `WideType` are mpact-sim/absl type
  traits taken at their documented meaning. Writing 32 bits to a 64-bit scalar register leaves the upper half to a parameter (`junk`).
* Vector permutations (VpermModel.v): same conventions; Vfslide1up/down are not modelled.
* Vector loads and stores (VmemModel.v): same conventions. The gather load and scatter store of mpact-sim's memory interface visit the buffers in index order, skip
  masked-off entries and complete at once; buffers are recycled, so an entry not written before use is undefined (`None`). The base address and stride are
  arguments. The fault-only-first loads (bound to the plain load functions) are not claimed. Illegal register combinations are outside the theorems.
* Floating-point control register (FcsrModel.v): reading and writing the processor's own status register (`ldmxcsr`, FPCR/FPSR) does what the processor manual
  says; which flags an instruction raises on the host is an argument. The recursion between Write and SetRoundingMode runs on fuel that is proved sufficient.
* Floating-point instructions (FpModel.v): FPTypeInfo (mpact-sim) has the constants its names say; the host compares and converts float to double as IEEE 754
  says. FPTypeInfo<uint32_t>::kCanonicalNaN, used by fsgnj*.s, is an argument. What the half fmin/fmax would do after reading their missing operand is not modelled.
* Floating-point arithmetic (FarithModel.v): the host's float and double operations are an argument; theorems assume `host_ok` (IEEE 754 in the host's four rounding
  modes, tininess after rounding as on x86, any NaN payload), shown satisfiable by two hosts. std::isnan raises no flag. Whether an unqualified `sqrt`/`fma` on
  floats selects the float or the double function depends on the headers: argument `wide`.
* Half-precision results (HalfModel.v): the host flags raised inside ConvertToHalfFP and the integer conversions are discarded (ScopedFPRoundingMode restores the host status);
  arithmetic theorems also assume `host_quiet` (host results are never signaling NaNs), shown satisfiable by the same two hosts; IsMpactFp<HalfFP>, float and double are true in mpact-sim.
* Vector floating point (FvModel.v): riscv_vector_fp_instructions.cc and the conversions, square root, class and estimates of riscv_vector_fp_unary_instructions.cc, for float and double elements, over the host of C70;
  arithmetic theorems also assume `host_quiet_double` (the host's conversions and products are never signaling NaNs), shown satisfiable by both hosts. NaN payloads of host results are left open (`fvrel_nan`). ScopedFPStatus and the template's own fflags variable are one accumulator.
* Vector floating-point compares, reductions and moves (FrModel.v): riscv_vector_fp_compare_instructions.cc, riscv_vector_fp_reduction_instructions.cc and Vfmvvf, Vfmvsf, Vfmvfs, for float and double elements;
  the host's sums are assumed never to be signaling NaNs (`host_quiet_sum`, an explicit hypothesis, met by an IEEE host). vfwredosum has no semantic function in riscv_vector.isa and is not modelled.
* Whole machine (MachModel.v): RiscVTop::Step over StepModel.v and HartModel.v, the rows of the system and CSR instructions of riscv32g.isa and riscv64g.isa (the
* F and D instructions (FstepModel.v): the rows of riscv32g.isa and riscv64g.isa, the getters Frs1, Frs2, Frs3, Frd, Drs1, Drs2, Drs3, Drd, Rs1, Rd, Rm, and the binding of semantic functions, for RV32G, RV64G, RV32GV and RV64GV; the semantic functions are those of FpModel.v and FarithModel.v with the host as a parameter. fcsr is reduced to the rounding mode in force and the accrued flags (its CSR views are FcsrModel.v). Not modelled: the GZB simulators, whose getters read f registers through an integer register type; Zfh instructions at this level.
  decoders and field extraction are those of C62-C64 and C73), the semantic functions of ecall, ebreak, mret, sret, wfi and the CSR instructions, for the CSRs mstatus, mie, mideleg,
  medeleg, mscratch, mepc, mcause, mtval, mtvec and the last five's supervisor counterparts. Device activity is a list of line changes per instruction. Not modelled: accesses to other CSRs, uret, sfence.vma, breakpoints, halts, callbacks.
* GDB target description (GdbModel.v): riscv_gdb_debug_info.cc and .h. The XML text is represented by its <reg> elements (name, bitsize, regnum); host_info_ is left out. Trusted: the GDB server
* Set of CSRs (CsrTabModel.v): names, numbers and pointers of the registers made in riscv_state.cc, riscv_pmp.h, riscv_fp_state.cc, riscv_vector_state.cc. Their values and masks are modelled elsewhere or not at all. Registers that riscv_top.cc or other simulators add later are left out.
* Memory trace (WatchModel.v): riscv_test_mem_watcher.cc and .h. Trusted: absl::Hex with padding and absl::StrAppend; a little-endian host. The memory behind is the list of calls it receives; rv32g_test_sim.cc and rv64g_test_sim.cc, which print the trace, are left out.
* Registers for Renode (RenodeModel.v): riscv_debug_info.cc and .h, riscv_renode_register_info.cc, riscv_renode.cc:341-384. Trusted: absl::flat_hash_map keeps the first of two entries with one key, strncpy, the order of the fields of RenodeCpuRegister. The rest of riscv_renode.cc is left out.
* $mode (SimModeModel.v): riscv_sim_csrs.cc and .h, the accesses of RiscVSimpleCsr<uint32_t>, the CSR branch of ReadRegister and WriteRegister (riscv_top.cc). Mode changes by traps and returns are arbitrary legal modes; the checks of WriteRegister before that branch and Reset are left out.
  (mpact-sim) finds registers by debug_register_map and transfers GetRegisterByteWidth bytes; GDB numbers registers as its manual says.
* misa (MisaModel.v): riscv_misa.cc in full, the inherited methods of RiscVSimpleCsr<uint64_t> it uses, kMisaInitialValue and the flag --misa. Not modelled: Reset, log messages, operands.
* Relocations (RelocModel.v): riscv_bin_setters.cc, riscv_bin_setters.h:1012-1034 and AppendSrcOpRelocation of riscv64g_bin_encoder_interface.cc. Trusted: RE2::FullMatch
  returns the match that prefers earlier and longer repetitions (leftmost-first), on ASCII texts; the generated encoder calls AppendSrcOpRelocation for the operands marked
  %reloc and for no others. Not modelled: the writing of the entries to the object file, and how the assembler splits a line into operands.
* Semihosting (SemModel.v, HtifModel.v): all of riscv_arm_semihost.cc and riscv32_htif_semihost.cc. The host's system calls are a record of arbitrary
  functions; the theorems that need it assume `posix_ok` (SemSpec.v) or `hposix_ok` (HtifSpec.v), the POSIX rules on descriptors and counts, which the hosts of the examples satisfy. Instruction and data memory are one store;
  signals, partial failures of memory accesses, reference counts and log messages are not modelled. O_CREAT = 64, L_tmpnam = 20 and AT_FDCWD = -100 are the values of Linux with glibc.
* Signed overflow in the integer instructions is modelled twice: `Iso` makes it undefined (`None`), `Wrapv` makes it wrap (IntModel.v). Theorems say which.

* `vcheck`/`coqchk` also list seven `Coq.ssr.ssrunder.Under_rel.*` module parameters. They belong to the ssreflect library that Coq loads; no theorem depends on them (`Print Assumptions` says `Closed under the global context` for each).
