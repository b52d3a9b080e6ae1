(** Model of the atomic instructions: riscv_a_instructions.cc and their rows in the .isa files.

    Trusted: the atomic memory interface of mpact-sim (AtomicMemoryOpInterface::PerformMemoryOp) is an argument; it either
    reports an error or delivers the value to the child instruction and completes at once.  What it does for each
    operation is the hypothesis [atomic_ok].  Reservations belong to it and are not modelled. *)
From Coq Require Import ZArith List String Bool.
From Verif Require Import Bits FmtSpec FmtModel DecModel Memory AccessSpec AccessModel StepSpec StepModel AmoSpec.
Import ListNotations.
Local Open Scope string_scope.
Local Open Scope Z_scope.

(** util::AtomicMemoryOpInterface::Operation (mpact-sim). *)
Inductive operation := kLoadLinked | kStoreConditional | kAtomicSwap | kAtomicAdd | kAtomicSub | kAtomicAnd | kAtomicOr | kAtomicXor
  | kAtomicMax | kAtomicMaxu | kAtomicMin | kAtomicMinu.
(** Model only: what PerformMemoryOp comes back with: the operation is unimplemented, some other error, or the memory
    afterwards and the value delivered. *)
Inductive reply := Unimplemented | Failed | Replied (m : mem) (v : Z).
(** Model only: operation, number of bytes, address, operand, memory. *)
Definition atomic_memory := operation -> nat -> Z -> Z -> mem -> reply.

(** riscv_a_instructions.cc:73-179: the semantic functions: operation, bytes, whether there is a store value. *)
Definition amo_funcs : list (string * (operation * nat * bool)) := [
   ("ALrw", (kLoadLinked, 4%nat, false)); ("AScw", (kStoreConditional, 4%nat, true));
   ("AAmoswapw", (kAtomicSwap, 4%nat, true)); ("AAmoaddw", (kAtomicAdd, 4%nat, true));
   ("AAmoandw", (kAtomicAnd, 4%nat, true)); ("AAmoorw", (kAtomicOr, 4%nat, true));
   ("AAmoxorw", (kAtomicXor, 4%nat, true)); ("AAmomaxw", (kAtomicMax, 4%nat, true));
   ("AAmomaxuw", (kAtomicMaxu, 4%nat, true)); ("AAmominw", (kAtomicMin, 4%nat, true));
   ("AAmominuw", (kAtomicMinu, 4%nat, true)); ("ALrd", (kLoadLinked, 8%nat, false));
   ("AScd", (kStoreConditional, 8%nat, true)); ("AAmoswapd", (kAtomicSwap, 8%nat, true));
   ("AAmoaddd", (kAtomicAdd, 8%nat, true)); ("AAmoandd", (kAtomicAnd, 8%nat, true));
   ("AAmoord", (kAtomicOr, 8%nat, true)); ("AAmoxord", (kAtomicXor, 8%nat, true));
   ("AAmomaxd", (kAtomicMax, 8%nat, true)); ("AAmomaxud", (kAtomicMaxu, 8%nat, true));
   ("AAmomind", (kAtomicMin, 8%nat, true)); ("AAmominud", (kAtomicMinu, 8%nat, true))].

(** riscv32g.isa:484-546: slots riscv32_amo_none, _swap, _logical, _arithmetic. *)
Definition amo_isa_32 : list irow := [
   mk_irow "lrw" 4 ["Rs1"; "AAq"; "ARl"] ["Rd"] "ALrw" "RV32::RiscVILwChild";
   mk_irow "scw" 4 ["Rs1"; "Rs2"; "AAq"; "ARl"] ["Rd"] "AScw" "RV32::RiscVILwChild";
   mk_irow "amoswapw" 4 ["Rs1"; "Rs2"; "AAq"; "ARl"] ["Rd"] "AAmoswapw" "RV32::RiscVILwChild";
   mk_irow "amoandw" 4 ["Rs1"; "Rs2"; "AAq"; "ARl"] ["Rd"] "AAmoandw" "RV32::RiscVILwChild";
   mk_irow "amoorw" 4 ["Rs1"; "Rs2"; "AAq"; "ARl"] ["Rd"] "AAmoorw" "RV32::RiscVILwChild";
   mk_irow "amoxorw" 4 ["Rs1"; "Rs2"; "AAq"; "ARl"] ["Rd"] "AAmoxorw" "RV32::RiscVILwChild";
   mk_irow "amoaddw" 4 ["Rs1"; "Rs2"; "AAq"; "ARl"] ["Rd"] "AAmoaddw" "RV32::RiscVILwChild";
   mk_irow "amomaxw" 4 ["Rs1"; "Rs2"; "AAq"; "ARl"] ["Rd"] "AAmomaxw" "RV32::RiscVILwChild";
   mk_irow "amomaxuw" 4 ["Rs1"; "Rs2"; "AAq"; "ARl"] ["Rd"] "AAmomaxuw" "RV32::RiscVILwChild";
   mk_irow "amominw" 4 ["Rs1"; "Rs2"; "AAq"; "ARl"] ["Rd"] "AAmominw" "RV32::RiscVILwChild";
   mk_irow "amominuw" 4 ["Rs1"; "Rs2"; "AAq"; "ARl"] ["Rd"] "AAmominuw" "RV32::RiscVILwChild"].
(** riscv64g.isa:565-685: slots riscv64_amo_none, _swap, _logical, _arithmetic. *)
Definition amo_isa_64 : list irow := [
   mk_irow "lrw" 4 ["Rs1"; "AAq"; "ARl"] ["Rd"] "ALrw" "RV64::RiscVILwChild";
   mk_irow "lrd" 4 ["Rs1"; "AAq"; "ARl"] ["Rd"] "ALrd" "RV64::RiscVILdChild";
   mk_irow "scw" 4 ["Rs1"; "Rs2"; "AAq"; "ARl"] ["Rd"] "AScw" "RV64::RiscVILwChild";
   mk_irow "scd" 4 ["Rs1"; "Rs2"; "AAq"; "ARl"] ["Rd"] "AScd" "RV64::RiscVILdChild";
   mk_irow "amoswapw" 4 ["Rs1"; "Rs2"; "AAq"; "ARl"] ["Rd"] "AAmoswapw" "RV64::RiscVILwChild";
   mk_irow "amoswapd" 4 ["Rs1"; "Rs2"; "AAq"; "ARl"] ["Rd"] "AAmoswapd" "RV64::RiscVILdChild";
   mk_irow "amoandw" 4 ["Rs1"; "Rs2"; "AAq"; "ARl"] ["Rd"] "AAmoandw" "RV64::RiscVILwChild";
   mk_irow "amoandd" 4 ["Rs1"; "Rs2"; "AAq"; "ARl"] ["Rd"] "AAmoandd" "RV64::RiscVILdChild";
   mk_irow "amoorw" 4 ["Rs1"; "Rs2"; "AAq"; "ARl"] ["Rd"] "AAmoorw" "RV64::RiscVILwChild";
   mk_irow "amoord" 4 ["Rs1"; "Rs2"; "AAq"; "ARl"] ["Rd"] "AAmoord" "RV64::RiscVILdChild";
   mk_irow "amoxorw" 4 ["Rs1"; "Rs2"; "AAq"; "ARl"] ["Rd"] "AAmoxorw" "RV64::RiscVILwChild";
   mk_irow "amoxord" 4 ["Rs1"; "Rs2"; "AAq"; "ARl"] ["Rd"] "AAmoxord" "RV64::RiscVILdChild";
   mk_irow "amoaddw" 4 ["Rs1"; "Rs2"; "AAq"; "ARl"] ["Rd"] "AAmoaddw" "RV64::RiscVILwChild";
   mk_irow "amoaddd" 4 ["Rs1"; "Rs2"; "AAq"; "ARl"] ["Rd"] "AAmoaddd" "RV64::RiscVILdChild";
   mk_irow "amomaxw" 4 ["Rs1"; "Rs2"; "AAq"; "ARl"] ["Rd"] "AAmomaxw" "RV64::RiscVILwChild";
   mk_irow "amomaxd" 4 ["Rs1"; "Rs2"; "AAq"; "ARl"] ["Rd"] "AAmomaxd" "RV64::RiscVILdChild";
   mk_irow "amomaxuw" 4 ["Rs1"; "Rs2"; "AAq"; "ARl"] ["Rd"] "AAmomaxuw" "RV64::RiscVILwChild";
   mk_irow "amomaxud" 4 ["Rs1"; "Rs2"; "AAq"; "ARl"] ["Rd"] "AAmomaxud" "RV64::RiscVILdChild";
   mk_irow "amominw" 4 ["Rs1"; "Rs2"; "AAq"; "ARl"] ["Rd"] "AAmominw" "RV64::RiscVILwChild";
   mk_irow "amomind" 4 ["Rs1"; "Rs2"; "AAq"; "ARl"] ["Rd"] "AAmomind" "RV64::RiscVILdChild";
   mk_irow "amominuw" 4 ["Rs1"; "Rs2"; "AAq"; "ARl"] ["Rd"] "AAmominuw" "RV64::RiscVILwChild";
   mk_irow "amominud" 4 ["Rs1"; "Rs2"; "AAq"; "ARl"] ["Rd"] "AAmominud" "RV64::RiscVILdChild"].
(** riscv32g.isa:1046-1054, riscv64g.isa:36-49 and the slots built on these: every simulator has the rows of its width. *)
Definition amo_isa (S : simulator) : list irow := if s_xlen S =? 32 then amo_isa_32 else amo_isa_64.

(** riscv_a_instructions.cc:36-71 AInstructionHelper, the child (RVLoadChild, riscv_instruction_helpers.h:393-409) and the pc
    update.  [atomic]: state->atomic_memory(), None if it is nullptr.  An error other than "unimplemented" is
    ignored. *)
Definition amo_exec (S : simulator) (atomic : option atomic_memory) (h : hart) (iw : Z) (r : irow) : option outcome :=
  match assoc amo_funcs (i_sem r), assoc semfuncs (i_child r), get_dst S (i_dst r) 0, get_src S (i_src r) 0 with
  | Some (op, n, has_store_value), Some child, Some d, Some base =>
      match atomic with
      | None => Some (illegal_instruction h)
      | Some perform =>
          let address := wrap 64 (src_value h iw base) in
          let operand := if has_store_value
                         then option_map (fun s => wrap (8 * Z.of_nat n) (src_value h iw s)) (get_src S (i_src r) 1) else Some 0 in
          match operand with
          | None => None
          | Some x =>
              match perform op n address x (hm h) with
              | Unimplemented => Some (illegal_instruction h)
              | Failed => next (s_xlen S) (i_size r) h
              | Replied m v => match exec_child (s_xlen S) (set_m h m) iw child d v with
                               | Some h' => next (s_xlen S) (i_size r) h' | None => None end
              end
          end
      end
  | _, _, _, _ => None
  end.
(** The instruction object the decoder makes for opcode [o]. *)
Definition amo_opcode (S : simulator) (atomic : option atomic_memory) (h : hart) (iw : Z) (o : string) : option outcome :=
  match find (fun r => String.eqb (i_name r) o) (amo_isa S) with
  | Some r => amo_exec S atomic h iw r
  | None => None
  end.

(** Model only: the operation an enumerator of AtomicMemoryOpInterface::Operation (mpact-sim) names. *)
Definition operation_amo (o : operation) : option amo_op :=
  match o with
  | kAtomicSwap => Some AmoSwap | kAtomicAdd => Some AmoAdd | kAtomicAnd => Some AmoAnd | kAtomicOr => Some AmoOr
  | kAtomicXor => Some AmoXor | kAtomicMax => Some AmoMax | kAtomicMaxu => Some AmoMaxu | kAtomicMin => Some AmoMin
  | kAtomicMinu => Some AmoMinu | _ => None
  end.
(** Model only: hypothesis on mpact-sim, for an aligned operand of 4 or 8 bytes: a load-linked delivers the word; a store-conditional stores and delivers 0 or
    does not and delivers another value; the others store and deliver the old word.  The subtraction is not used. *)
Definition atomic_ok (perform : atomic_memory) : Prop :=
  forall o n a x m, n = 4%nat \/ n = 8%nat -> aligned a n -> 0 <= x < 2 ^ (8 * Z.of_nat n) -> byte_mem m ->
  let old := load_le m a n in
  match o with
  | kLoadLinked => exists m', perform o n a x m = Replied m' old /\ forall y, m' y = m y
  | kStoreConditional => exists m' v, perform o n a x m = Replied m' v /\ 0 <= v < 2 ^ (8 * Z.of_nat n) /\
      forall y, m' y = if v =? 0 then store_le m a n x y else m y
  | kAtomicSub => True
  | _ => match operation_amo o with
         | Some op => exists m', perform o n a x m = Replied m' old /\
             forall y, m' y = store_le m a n (amo_value op (8 * Z.of_nat n) old x) y
         | None => True
         end
  end.
