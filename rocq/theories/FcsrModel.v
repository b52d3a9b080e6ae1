(** Model of riscv/riscv_fp_state.{h,cc} and of the host interfaces riscv/riscv_fp_host_x86.cc and
    riscv/riscv_fp_host_arm.cc: the fcsr, fflags and frm registers, the rounding mode, and the
    status words kept for the host processor. *)
From Coq Require Import ZArith Bool List.
From Verif Require Import Bits FcsrSpec.
Import ListNotations.
Local Open Scope Z_scope.

(** riscv_fp_host_x86.cc:30-35 - the x86 flags. *)
Definition kPE := 32. Definition kUE := 16. Definition kOE := 8. Definition kZE := 4. Definition kIE := 1.
(** riscv_fp_info.h:34-40, riscv_fp_host_x86.cc:37-42 - the RISC-V flags. *)
Definition kNV := 16. Definition kDZ := 8. Definition kOF := 4. Definition kUF := 2. Definition kNX := 1.
(** Model only: C++ [|]. *)
Local Infix "#" := Z.lor (at level 50, left associativity).

(** riscv_fp_host_x86.cc:48-111 - kX86FlagsToRiscvMap. *)
Definition kX86FlagsToRiscvMap : list Z :=
  [0; kNV; 0; kNV; kDZ; kDZ # kNV; kDZ; kNV # kDZ;
   kOF; kOF # kNV; kOF; kOF # kNV; kOF # kDZ; kOF # kDZ # kNV; kOF # kDZ; kOF # kDZ # kNV;
   kUF; kUF # kNV; kUF; kUF # kNV; kUF # kDZ; kUF # kDZ # kNV; kUF # kDZ; kUF # kDZ # kNV;
   kUF # kOF; kUF # kOF # kNV; kUF # kOF; kUF # kOF # kNV;
   kUF # kOF # kDZ; kUF # kOF # kDZ # kNV; kUF # kOF # kDZ; kUF # kOF # kDZ # kNV;
   kNX; kNX # kNV; kNX; kNX # kNV; kNX # kDZ; kNX # kDZ # kNV; kNX # kDZ; kNX # kNV # kDZ;
   kNX # kOF; kNX # kOF # kNV; kNX # kOF; kNX # kOF # kNV;
   kNX # kOF # kDZ; kNX # kOF # kDZ # kNV; kNX # kOF # kDZ; kNX # kOF # kDZ # kNV;
   kNX # kUF; kNX # kUF # kNV; kNX # kUF; kNX # kUF # kNV;
   kNX # kUF # kDZ; kNX # kUF # kDZ # kNV; kNX # kUF # kDZ; kNX # kUF # kDZ # kNV;
   kNX # kUF # kOF; kNX # kUF # kOF # kNV; kNX # kUF # kOF; kNX # kUF # kOF # kNV;
   kNX # kUF # kOF # kDZ; kNX # kUF # kOF # kDZ # kNV; kNX # kUF # kOF # kDZ;
   kNX # kUF # kOF # kDZ # kNV].

(** riscv_fp_host_x86.cc:115-148 - kRiscVFlagsToX86. *)
Definition kRiscVFlagsToX86 : list Z :=
  [0; kPE; kUE; kUE # kPE; kOE; kOE # kPE; kOE # kUE; kOE # kUE # kPE;
   kZE; kZE # kPE; kZE # kUE; kZE # kUE # kPE; kZE # kOE; kZE # kOE # kPE; kZE # kOE # kUE;
   kZE # kOE # kUE # kPE;
   kIE; kIE # kPE; kIE # kUE; kIE # kUE # kPE; kIE # kOE; kIE # kOE # kPE; kIE # kOE # kUE;
   kIE # kOE # kUE # kPE;
   kIE # kZE; kIE # kZE # kPE; kIE # kZE # kUE; kIE # kZE # kUE # kPE; kIE # kZE # kOE;
   kIE # kZE # kOE # kPE; kIE # kZE # kOE # kUE; kIE # kZE # kOE # kUE # kPE].

(** riscv_fp_host_x86.cc:150-158 - x86 rounding modes and kRiscVToX86RoundingModeMap. *)
Definition kX86ToNearest := 0x0000. Definition kX86ToNegInf := 0x2000.
(** riscv_fp_host_x86.cc:152-153 - the other two. *)
Definition kX86ToPosInf := 0x4000. Definition kX86ToZero := 0x6000.
(** riscv_fp_host_x86.cc:155-158 - RISC-V mode to x86 mode. *)
Definition kRiscVToX86RoundingModeMap : list Z :=
  [kX86ToNearest; kX86ToZero; kX86ToNegInf; kX86ToPosInf;
   kX86ToNearest; kX86ToNearest; kX86ToNearest; kX86ToNearest].
(** riscv_fp_host_x86.cc:160-163 - kX86ToRiscVRoundingModeMap (RNE, RDN, RUP, RTZ). *)
Definition kX86ToRiscVRoundingModeMap : list Z := [0; 2; 3; 1].
(** riscv_fp_host_x86.cc:165 *)
Definition kX86ExceptionFlags := 0x1f80.

(** riscv_fp_host_arm.cc:30-35 - the Arm flags. *)
Definition kArmIX := 16. Definition kArmUF := 8. Definition kArmOF := 4. Definition kArmDZ := 2.
(** riscv_fp_host_arm.cc:36. *)
Definition kArmIO := 1.

(** riscv_fp_host_arm.cc:51-84 - kArmFlagsToRiscvMap. *)
Definition kArmFlagsToRiscvMap : list Z :=
  [0; kNV; kDZ; kDZ # kNV; kOF; kOF # kNV; kOF # kDZ; kOF # kDZ # kNV;
   kUF; kUF # kNV; kUF # kDZ; kUF # kDZ # kNV; kUF # kOF; kUF # kOF # kNV; kUF # kOF # kDZ;
   kUF # kOF # kDZ # kNV;
   kNX; kNX # kNV; kNX # kDZ; kNX # kDZ # kNV; kNX # kOF; kNX # kOF # kNV; kNX # kOF # kDZ;
   kNX # kOF # kDZ # kNV;
   kNX # kUF; kNX # kUF # kNV; kNX # kUF # kDZ; kNX # kUF # kDZ # kNV; kNX # kUF # kOF;
   kNX # kUF # kOF # kNV; kNX # kUF # kOF # kDZ; kNX # kUF # kOF # kDZ # kNV].

(** riscv_fp_host_arm.cc:88-120 - kRiscVFlagsToArm. *)
Definition kRiscVFlagsToArm : list Z :=
  [0; kArmIX; kArmUF; kArmUF # kArmIX; kArmOF; kArmOF # kArmIX; kArmOF # kArmUF;
   kArmOF # kArmUF # kArmIX;
   kArmDZ; kArmDZ # kArmIX; kArmDZ # kArmUF; kArmDZ # kArmUF # kArmIX; kArmDZ # kArmOF;
   kArmDZ # kArmOF # kArmIX; kArmDZ # kArmOF # kArmUF; kArmDZ # kArmOF # kArmUF # kArmIX;
   kArmIO; kArmIO # kArmIX; kArmIO # kArmUF; kArmIO # kArmUF # kArmIX; kArmIO # kArmOF;
   kArmIO # kArmOF # kArmIX; kArmIO # kArmOF # kArmUF; kArmIO # kArmOF # kArmUF # kArmIX;
   kArmIO # kArmDZ; kArmIO # kArmDZ # kArmIX; kArmIO # kArmDZ # kArmUF;
   kArmIO # kArmDZ # kArmUF # kArmIX; kArmIO # kArmDZ # kArmOF;
   kArmIO # kArmDZ # kArmOF # kArmIX; kArmIO # kArmDZ # kArmOF # kArmUF;
   kArmIO # kArmDZ # kArmOF # kArmUF # kArmIX].

(** riscv_fp_host_arm.cc:122-130 - Arm rounding modes, already in bits 22 and 23, and
    kRiscVToArmRoundingModeMap. *)
Definition kArmToNearest := 0x000000. Definition kArmToNegInf := 0x800000.
(** riscv_fp_host_arm.cc:125-126. *)
Definition kArmToPosInf := 0x400000. Definition kArmToZero := 0xc00000.
(** riscv_fp_host_arm.cc:128-130 - RISC-V mode to Arm mode. *)
Definition kRiscVToArmRoundingModeMap : list Z :=
  [kArmToNearest; kArmToZero; kArmToNegInf; kArmToPosInf;
   kArmToNearest; kArmToNearest; kArmToNearest; kArmToNearest].
(** riscv_fp_host_arm.cc:132-135 - kArmToRiscVRoundingModeMap (RNE, RUP, RDN, RTZ). *)
Definition kArmToRiscVRoundingModeMap : list Z := [0; 3; 2; 1].

(** Model only: indexing a table. *)
Definition at_ (t : list Z) (i : Z) : Z := nth (Z.to_nat i) t 0.

(** What the interface object stores: riscv_fp_host_x86.cc:191-195 (x86_status_),
    riscv_fp_host_arm.cc:137-140,170-171 (arm_fp_regs_: fpcr, fpsr). *)
Inductive hstate := HX86 (status : Z) | HArm (fpcr fpsr : Z).

(** riscv_fp_host_x86.cc:194, riscv_fp_host_arm.cc:170 - initial values. *)
Definition host_init (h : host) : hstate :=
  match h with X86 => HX86 kX86ExceptionFlags | Arm => HArm 0 0 end.

(** riscv_fp_host_x86.cc:175-181, riscv_fp_host_arm.cc:149-155 - GetRiscVFcsr. *)
Definition get_riscv_fcsr (s : hstate) : Z :=
  match s with
  | HX86 status =>
      let x86_rm := Z.land (Z.shiftr status 13) 0x3 in
      let rm := at_ kX86ToRiscVRoundingModeMap x86_rm in
      let flags := at_ kX86FlagsToRiscvMap (Z.land status 0x3f) in
      Z.lor (Z.shiftl rm 5) (Z.land flags 0x1f)
  | HArm fpcr fpsr =>
      let arm_rm := Z.land (Z.shiftr fpcr 22) 0x3 in
      let rm := at_ kArmToRiscVRoundingModeMap arm_rm in
      let flags := at_ kArmFlagsToRiscvMap (Z.land fpsr 0x1f) in
      Z.lor (Z.shiftl rm 5) (Z.land flags 0x1f) end.

(** riscv_fp_host_x86.cc:183-188, riscv_fp_host_arm.cc:157-164 - SetRiscVFcsr.  On Arm the shift by
    22 is done in 32 bits, on table entries that are already in place. *)
Definition set_riscv_fcsr (s : hstate) (riscv_fcsr : Z) : hstate :=
  let rm := Z.land (Z.shiftr riscv_fcsr 5) 0x7 in
  match s with
  | HX86 _ =>
      HX86 (Z.lor (Z.lor kX86ExceptionFlags (at_ kRiscVToX86RoundingModeMap rm))
                  (at_ kRiscVFlagsToX86 (Z.land riscv_fcsr 0x1f)))
  | HArm _ _ =>
      HArm (wrap 32 (Z.shiftl (at_ kRiscVToArmRoundingModeMap rm) 22))
           (at_ kRiscVFlagsToArm (Z.land riscv_fcsr 0x1f)) end.

(** One instruction computed inside a ScopedFPStatus object: the constructor loads the processor's
    status registers, the processor raises flags [x], the destructor saves them.  [rm]: the mode
    passed to the constructor, None for the constructor without one.  Result: the new stored state
    and the rounding mode (numbered as by RISC-V) the processor ran in.  x86: riscv_fp_host_x86.cc
    204-241 and 269-286 (the destructor computes sim_status but stores x86_sim_status;
    set_x86_status 190-192).  Arm: riscv_fp_host_arm.cc 180-232 and 263-281.  Simplified: the
    processor's own status before and after is not represented. *)
Definition scoped (s : hstate) (rm : option Z) (x : Z) : hstate * Z :=
  match s with
  | HX86 status =>
      let mxcsr :=
        match rm with
        | Some r => if r =? 7 then status
                    else Z.lor (at_ kRiscVToX86RoundingModeMap r) (Z.land status 0x1fff)
        | None => status end in
      let after := Z.lor mxcsr x in
      (HX86 (Z.lor kX86ExceptionFlags after),
       at_ kX86ToRiscVRoundingModeMap (Z.land (Z.shiftr mxcsr 13) 0x3))
  | HArm fpcr fpsr =>
      let host_rm := Z.land fpcr kArmToZero in
      let fpcr' :=
        match rm with
        | Some r => if r =? 7 then fpcr else at_ kRiscVToArmRoundingModeMap r
        | None => fpcr end in
      (HArm host_rm (Z.lor fpsr x),
       at_ kArmToRiscVRoundingModeMap (Z.land (Z.shiftr fpcr' 22) 0x3)) end.

(** riscv_fp_state.h:85-127 - class RiscVFPState: the stored fcsr word (RiscVSimpleCsr::value_; the
    words stored for frm and fflags are never used), the host interface, rounding_mode_valid_ and
    rounding_mode_. *)
Record fpstate := { value : Z; hst : hstate; valid : bool; rmode : Z }.
(** riscv_fp_state.cc:32, riscv_fp_state.h:124-125 - initial state. *)
Definition init (h : host) : fpstate :=
  {| value := 0; hst := host_init h; valid := true; rmode := 0 |}.

(** riscv_fp_state.cc:33-44 - masks. *)
Definition kFcsrMask := 0xff. Definition kFflagsMask := 0x1f. Definition kFrmMask := 0x7.

(** riscv_fp_state.cc:103-108 - RiscVFcsr::AsUint32. *)
Definition fcsr_as (s : fpstate) : Z :=
  let status_value := get_riscv_fcsr (hst s) in
  Z.land (Z.lor (Z.land (value s) (wnot 32 0x1f)) (Z.land status_value 0x1f)) kFcsrMask.

(** riscv_fp_state.cc:133-137 - RiscVFflags::AsUint32. *)
Definition fflags_as (s : fpstate) : Z := Z.land (fcsr_as s) 0x1f.
(** riscv_fp_state.cc:158-162 - RiscVFrm::AsUint32. *)
Definition frm_as (s : fpstate) : Z := Z.land (Z.shiftr (fcsr_as s) 5) kFrmMask.

(** riscv_fp_state.cc:74-95 (SetRoundingMode), 114-120 (RiscVFcsr::Write) and 164-169
    (RiscVFrm::Write), which call each other.  [fuel] bounds the recursion; None: exhausted (the
    proofs show that this never happens with the fuel used below). *)
Fixpoint fcsr_write (fuel : nat) (s : fpstate) (v : Z) {struct fuel} : option fpstate :=
  match fuel with
  | O => None
  | S fuel =>
      let wr_value := Z.land v kFcsrMask in
      let s1 := {| value := wr_value; hst := set_riscv_fcsr (hst s) wr_value;
                   valid := valid s; rmode := rmode s |} in
      set_rounding_mode fuel s1 (Z.land (Z.shiftr wr_value 5) 0x7)
  end
with set_rounding_mode (fuel : nat) (s : fpstate) (mode : Z) {struct fuel} : option fpstate :=
  match fuel with
  | O => None
  | S fuel =>
      if rmode s =? mode then Some s
      else if (mode =? 4) || (mode =? 0) || (mode =? 1) || (mode =? 2) || (mode =? 3) then
        let s1 := {| value := value s; hst := hst s; valid := valid s; rmode := mode |} in
        match frm_write fuel s1 mode with
        | Some s2 => Some {| value := value s2; hst := hst s2; valid := true; rmode := rmode s2 |}
        | None => None end
      else Some {| value := value s; hst := hst s; valid := false; rmode := rmode s |}
  end
with frm_write (fuel : nat) (s : fpstate) (v : Z) {struct fuel} : option fpstate :=
  match fuel with
  | O => None
  | S fuel =>
      let wr_value := Z.land v kFrmMask in
      fcsr_write fuel s (Z.lor (Z.land (fcsr_as s) 0x1f) (Z.shiftl wr_value 5))
  end.
(** Model only: enough fuel for every call. *)
Definition fuel : nat := 8.

(** riscv_fp_state.cc:139-144 - RiscVFflags::Write. *)
Definition fflags_write (s : fpstate) (v : Z) : option fpstate :=
  let current := fcsr_as s in
  let new_value := Z.lor (Z.land current (wnot 32 kFflagsMask)) (Z.land v kFflagsMask) in
  if new_value =? current then Some s else fcsr_write fuel s new_value.

(** Write of a 64-bit value is truncated to 32 bits: riscv_fp_state.cc:122, riscv_fp_state.h:62,84. *)
Definition csr_write (s : fpstate) (c : creg) (v : Z) : option fpstate :=
  match c with
  | Fcsr => fcsr_write fuel s (wrap 32 v)
  | Fflags => fflags_write s (wrap 32 v)
  | Frm => frm_write fuel s (wrap 32 v) end.

(** GetUint32: riscv_csr.h:465 for fcsr (the stored word), riscv_fp_state.cc:146,171 for the others. *)
Definition get_uint (s : fpstate) (c : creg) : Z :=
  match c with Fcsr => value s | Fflags => fflags_as s | Frm => frm_as s end.

(** AsUint32 of the three registers: what csrr returns. *)
Definition csr_read (s : fpstate) (c : creg) : Z :=
  match c with Fcsr => fcsr_as s | Fflags => fflags_as s | Frm => frm_as s end.

(** riscv_csr.h:458-463 - SetBits and ClearBits (64-bit versions; the 32-bit ones agree after the
    truncation in Write). *)
Definition set_bits (s : fpstate) (c : creg) (v : Z) : option fpstate :=
  csr_write s c (Z.lor (get_uint s c) v).
(** riscv_csr.h:458-463 - ClearBits. *)
Definition clear_bits (s : fpstate) (c : creg) (v : Z) : option fpstate :=
  csr_write s c (Z.land (get_uint s c) (wnot 64 v)).

(** Running one instruction on the host.  Scalar: riscv_instruction_helpers.h:496-507 (and the same
    code in the other helpers): the dynamic mode is replaced by GetRoundingMode, and nothing happens
    when it is not valid.  Vector: riscv_vector_fp_instructions.cc:38-47 (and the same code in every
    other function of the file). *)
Definition host_scalar (s : fpstate) (rm x : Z) : fpstate * option Z :=
  if (rm =? 7) && negb (valid s) then (s, None)
  else
    let rm' := if rm =? 7 then rmode s else rm in
    let (h', used) := scoped (hst s) (Some rm') x in
    ({| value := value s; hst := h'; valid := valid s; rmode := rmode s |}, Some used).
(** riscv_vector_fp_instructions.cc:38-47 - the mode already in force is kept. *)
Definition host_vector (s : fpstate) (x : Z) : fpstate * option Z :=
  if negb (valid s) then (s, None)
  else
    let (h', used) := scoped (hst s) None x in
    ({| value := value s; hst := h'; valid := valid s; rmode := rmode s |}, Some used).

(** Model only: one operation of [FcsrSpec.op]. *)
Definition do_op (s : fpstate) (o : op) : option (fpstate * option (option Z)) :=
  match o with
  | Write c v => option_map (fun s' => (s', None)) (csr_write s c v)
  | Set_ c v => option_map (fun s' => (s', None)) (set_bits s c v)
  | Clear c v => option_map (fun s' => (s', None)) (clear_bits s c v)
  | Raise f => option_map (fun s' => (s', None)) (set_bits s Fflags f)
  | Scalar rm x => let (s', u) := host_scalar s rm x in Some (s', Some u)
  | Vector x => let (s', u) := host_vector s x in Some (s', Some u) end.

(** Model only: a history. *)
Fixpoint do_run (s : fpstate) (l : list op) : option (fpstate * list (option (option Z))) :=
  match l with
  | [] => Some (s, [])
  | o :: l' =>
      match do_op s o with
      | Some (s1, r) =>
          match do_run s1 l' with Some (s2, rs) => Some (s2, r :: rs) | None => None end
      | None => None end end.
