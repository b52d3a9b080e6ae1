(** Model of the set of CSRs (C97): riscv_csr.h:45-281 (numbers), CreateCsrs (riscv_state.cc:161-432), RiscVPmp
    (riscv_pmp.h:68-122), RiscVFPState and RiscVVectorState (names and numbers). *)
From Coq Require Import ZArith List String Bool.
From Verif Require Import CsrSpec CsrModel CsrTabSpec.
Import ListNotations.
Local Open Scope string_scope.
Local Open Scope Z_scope.

(** Model only: a register object: name, number, the counter it holds a pointer to. *)
Record csr := mk_csr { c_name : string; c_number : Z; c_refers : refers }.
(** Model only: a register that is not a high half. *)
Definition plain (e : string * Z) : csr := mk_csr (fst e) (snd e) Itself.

(** riscv_csr.h:68. *)
Definition kCycle : Z := 0xc00.
(** riscv_csr.h:101. *)
Definition kCycleH : Z := 0xc80.
(** riscv_csr.h:103; the value is the one in the code. *)
Definition kInstretH : Z := 0x82.
(** riscv_csr.h:204. *)
Definition kMCycle : Z := 0xb00.
(** riscv_csr.h:242. *)
Definition kMCycleH : Z := 0xb80.
(** riscv_state.h:46-47, kNumHardwarePerfCounters and kMinimumHardwarePerfIndex. *)
Definition kNumHardwarePerfCounters : nat := 29.
(** riscv_state.h:47. *)
Definition kMinimumHardwarePerfIndex : nat := 3.

(** riscv_state.cc:291-316, the hpmcounters. *)
Definition hpmcounters (rv32 : bool) : list csr :=
  flat_map (fun i => let k := (i + kMinimumHardwarePerfIndex)%nat in
    let low := kCycle + Z.of_nat i + Z.of_nat kMinimumHardwarePerfIndex in
    (mk_csr ("hpmcounter" ++ numeral k)%string low Itself ::
     (if rv32 then [mk_csr ("hpmcounter" ++ numeral k ++ "h")%string (kCycleH + Z.of_nat i + Z.of_nat kMinimumHardwarePerfIndex) (HighOf low)] else []))%list)
    (seq 0 kNumHardwarePerfCounters).
(** riscv_state.cc:318-344, the mhpmcounters; the high halves get mhpmcounter + kMinimumHardwarePerfIndex, a pointer three
    objects past the counter. *)
Definition mhpmcounters (rv32 : bool) : list csr :=
  flat_map (fun i => let k := (i + kMinimumHardwarePerfIndex)%nat in
    let low := kMCycle + Z.of_nat i + Z.of_nat kMinimumHardwarePerfIndex in
    (mk_csr ("mhpmcounter" ++ numeral k)%string low Itself ::
     (if rv32 then [mk_csr ("mhpmcounter" ++ numeral k ++ "h")%string (kMCycleH + Z.of_nat i + Z.of_nat kMinimumHardwarePerfIndex) Outside] else []))%list)
    (seq 0 kNumHardwarePerfCounters).
(** riscv_state.cc:161-432, CreateCsrs, in order; [rv32]: T is uint32_t.  Names and numbers of misa, mip, mie, mstatus,
    sstatus, sip, sie from their constructors (riscv_misa.cc:47, riscv_xip_xie.cc:28-81, riscv_xstatus.cc:55, 126). *)
Definition CreateCsrs (rv32 : bool) : list csr :=
  let high (s : string) (n low : Z) := if rv32 then [mk_csr s n (HighOf low)] else [] in
  (map plain [("menvcfg", 0x30a); ("misa", 0x301); ("mtvec", 0x305); ("mcause", 0x342); ("mip", 0x344); ("mie", 0x304); ("mhartid", 0xf14);
              ("mepc", 0x341); ("mscratch", 0x340); ("medeleg", 0x302); ("mideleg", 0x303); ("mstatus", 0x300); ("mtval", 0x343)] ++
   [plain ("minstret", 0xb02)] ++ high "minstreth" 0xb82 0xb02 ++ [plain ("mcycle", kMCycle)] ++ high "mcycleh" kMCycleH kMCycle ++
   [plain ("cycle", kCycle)] ++ high "cycleh" kCycleH kCycle ++ [plain ("time", 0xc01)] ++ high "timeh" 0xc81 0xc01 ++
   [plain ("instret", 0xc02)] ++ high "instreth" kInstretH 0xc02 ++ hpmcounters rv32 ++ mhpmcounters rv32 ++
   map plain [("henvcfg", 0x60a); ("senvcfg", 0x10a); ("scounteren", 0x106); ("sstatus", 0x100); ("sip", 0x144); ("sie", 0x104); ("stvec", 0x105);
              ("scause", 0x142); ("sepc", 0x141); ("stval", 0x143); ("sscratch", 0x140); ("sideleg", 0x103); ("ustatus", 0x000)])%list.
(** riscv_pmp.h:68-122 CreatePmpCsrs. *)
Definition CreatePmpCsrs (rv32 : bool) : list csr :=
  (map plain ([("pmpcfg0", 0x3a0)] ++ (if rv32 then [("pmpcfg1", 0x3a1)] else []) ++ [("pmpcfg2", 0x3a2)] ++ (if rv32 then [("pmpcfg3", 0x3a3)] else [])) ++
   map (fun i => plain (("pmpaddr" ++ numeral i)%string, 0x3b0 + Z.of_nat i)) (seq 0 16))%list.
(** riscv_state.cc:414-432 (jvt and $mode, 0x1800, riscv_csr.h:281); riscv_fp_state.cc:99-160; riscv_vector_state.cc:71-143. *)
Definition created (rv32 fp vector : bool) : list csr :=
  (CreateCsrs rv32 ++ CreatePmpCsrs rv32 ++ map plain [("jvt", 0x017); ("$mode", 0x1800)] ++
   (if fp then map plain [("fcsr", 0x003); ("fflags", 0x001); ("frm", 0x002)] else []) ++
   (if vector then map plain [("vl", 0xc20); ("vtype", 0xc21); ("vstart", 0x008); ("vxsat", 0x009); ("vxrm", 0x00a); ("vcsr", 0x00f); ("vlenb", 0xc22)]
    else []))%list.

(** riscv_state.cc:105-157, CreateCsr: each register is added to the set (AddCsr of CsrModel); an error ends the program
    (CHECK_NE), except for PMP registers, where it is logged.  co_id is the position in the order of construction. *)
Definition additions (l : list csr) : list tbl_op :=
  map (fun p => TblAdd (Some {| co_name := c_name (snd p); co_index := c_number (snd p); co_id := Z.of_nat (fst p) |})) (combine (seq 0 (List.length l)) l).
(** Model only: the set built and the answers to AddCsr. *)
Definition built (rv32 fp vector : bool) : csr_set_t * list tbl_out := run csr_set_step csr_set_empty (additions (created rv32 fp vector)).
(** Model only: the object at a position. *)
Definition object_at (rv32 fp vector : bool) (c : csr_obj) : option csr := nth_error (created rv32 fp vector) (Z.to_nat (co_id c)).
