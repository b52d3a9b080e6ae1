(** C20, C21, C24, C25, C26: theorems about the integer instructions.
    [iop_exec o w op a b rd] is what the code leaves in rd, given the operands and the
    previous contents of rd; None is undefined behaviour of the C++ program. *)
From Coq Require Import ZArith Bool List Lia.
From Verif Require Import Bits IntSpec IntModel IntProofs IntProofs2 IntProofs3.
Local Open Scope Z_scope.

(** C20: add/sub/logic/shift/compare/lui/auipc and the W forms, for every operand pair and
    every previous rd, when the compiler wraps signed arithmetic. *)
Theorem base_alu_correct : forall w op a b rd,
  xlen_ok w -> in_xlen w op -> base_op op = true -> 0 <= a < 2 ^ w -> 0 <= b < 2 ^ w -> 0 <= rd < 2 ^ w ->
  exists r, iop_exec Wrapv w op a b rd = Some r /\ rd_rel w op a b r.
Proof. exact base_alu_correct_main. Qed.
Print Assumptions base_alu_correct.

(** C20 under ISO C++: the same, except when the 32-bit sum or difference of addw/subw
    overflows (signed overflow in riscv_i_instructions.cc:204, 217). *)
Theorem base_alu_iso_partial : forall w op a b rd,
  xlen_ok w -> in_xlen w op -> base_op op = true -> 0 <= a < 2 ^ w -> 0 <= b < 2 ^ w -> 0 <= rd < 2 ^ w ->
  no_word_overflow op a b ->
  exists r, iop_exec Iso w op a b rd = Some r /\ rd_rel w op a b r.
Proof. exact base_alu_iso_partial_main. Qed.
Print Assumptions base_alu_iso_partial.

Theorem addw_iso_refuted : exists a b rd, 0 <= a < 2 ^ 64 /\ 0 <= b < 2 ^ 64 /\ 0 <= rd < 2 ^ 64 /\
  iop_exec Iso 64 Addw a b rd = None /\ iop_exec Iso 64 Subw a (2 ^ 64 - b) rd = None.
Proof. exists (2 ^ 31 - 1), 1, 0. vm_compute. repeat split; try discriminate. Qed.
Print Assumptions addw_iso_refuted.

(** Non-vacuity: a negative shift operand, and a word sum that changes sign. *)
Example base_example :
  iop_exec Wrapv 32 Sra 0x80000000 0xffffffe4 7 = Some 0xf8000000 /\
  iop_exec Wrapv 64 Addw 0x7fffffff 1 7 = Some 0xffffffff80000000 /\
  iop_exec Iso 64 Addw 0xffffffff 1 7 = Some 0 /\ no_word_overflow Addw 0xffffffff 1 /\
  iop_exec Iso 64 Auipc 0x80000123 0x1000 7 = Some 0xffffffff80001000.
Proof.
  assert (no_word_overflow Addw 0xffffffff 1) by (intros x E; injection E as <-; vm_compute; split; congruence).
  ssplit; first [assumption | vm_compute; reflexivity].
Qed.

(** C21: multiplication and division, every operand pair. *)
Theorem muldiv_correct : forall w op a b rd,
  xlen_ok w -> in_xlen w op -> muldiv_op op = true -> 0 <= a < 2 ^ w -> 0 <= b < 2 ^ w -> 0 <= rd < 2 ^ w ->
  exists r, iop_exec Wrapv w op a b rd = Some r /\ rd_rel w op a b r.
Proof. exact muldiv_correct_main. Qed.
Print Assumptions muldiv_correct.

(** C21 under ISO C++: only mulw can overflow (riscv_m_instructions.cc:196). *)
Theorem muldiv_iso_partial : forall w op a b rd,
  xlen_ok w -> in_xlen w op -> muldiv_op op = true -> 0 <= a < 2 ^ w -> 0 <= b < 2 ^ w -> 0 <= rd < 2 ^ w ->
  (op = Mulw -> - 2 ^ 31 <= sgn 32 a * sgn 32 b < 2 ^ 31) ->
  exists r, iop_exec Iso w op a b rd = Some r /\ rd_rel w op a b r.
Proof. exact muldiv_iso_partial_main. Qed.
Print Assumptions muldiv_iso_partial.

Theorem mulw_iso_refuted : exists a b rd, 0 <= a < 2 ^ 64 /\ 0 <= b < 2 ^ 64 /\ 0 <= rd < 2 ^ 64 /\
  iop_exec Iso 64 Mulw a b rd = None.
Proof. exists (2 ^ 16), (2 ^ 15), 0. vm_compute. repeat split; discriminate. Qed.
Print Assumptions mulw_iso_refuted.

(** The division tables meant by [div_spec]/[rem_spec]: away from the two architected
    special cases, dividend = divisor * quotient + remainder, |remainder| < |divisor|, and
    the remainder has the sign of the dividend (truncation towards zero). *)
Theorem division_law : forall w a b, b <> 0 -> ~ (a = - 2 ^ (w - 1) /\ b = -1) ->
  a = b * div_spec w a b + rem_spec w a b /\ Z.abs (rem_spec w a b) < Z.abs b /\
  (rem_spec w a b = 0 \/ Z.sgn (rem_spec w a b) = Z.sgn a).
Proof. exact division_law_main. Qed.
Print Assumptions division_law.

Example muldiv_example :
  iop_exec Iso 64 Mulhsu 0xffffffffffffffff 0xffffffffffffffff 5 = Some 0xffffffffffffffff /\
  iop_exec Iso 32 Div 0x80000000 0xffffffff 5 = Some 0x80000000 /\
  iop_exec Iso 32 Rem 0xfffffff9 2 5 = Some 0xffffffff /\
  iop_exec Iso 64 Remuw 0x80000000 0 5 = Some 0xffffffff80000000.
Proof. vm_compute. auto. Qed.

(** C24: Zba, Zbb, Zbs and Zicond (riscv_bitmanip_instructions.cc); cpopw is treated below. *)
Theorem bitmanip_correct_partial : forall o w op a b rd,
  xlen_ok w -> in_xlen w op -> bitmanip_op op = true -> op <> Cpopw -> op <> ZextW -> iop_args_ok op b ->
  0 <= a < 2 ^ w -> 0 <= b < 2 ^ w -> 0 <= rd < 2 ^ w ->
  exists r, iop_exec o w op a b rd = Some r /\ rd_rel w op a b r.
Proof. exact bitmanip_correct_partial_main. Qed.
Print Assumptions bitmanip_correct_partial.

(** C24/C26: cpopw leaves the upper half of rd unchanged. *)
Theorem cpopw_low_half_partial : forall o a b rd, 0 <= a < 2 ^ 64 -> 0 <= rd < 2 ^ 64 ->
  iop_exec o 64 Cpopw a b rd = Some (ones_count 32 a + 2 ^ 32 * (rd / 2 ^ 32)).
Proof. exact cpopw_exec. Qed.
Print Assumptions cpopw_low_half_partial.

Theorem cpopw_refuted : exists a b rd1 rd2, 0 <= rd1 < 2 ^ 64 /\ 0 <= rd2 < 2 ^ 64 /\
  iop_exec Wrapv 64 Cpopw a b rd1 <> iop_exec Wrapv 64 Cpopw a b rd2 /\
  forall r, iop_exec Wrapv 64 Cpopw a b rd2 = Some r -> ~ rd_rel 64 Cpopw a b r.
Proof.
  exists 7, 0, 0, (2 ^ 40). split; [lia|split; [lia|split]].
  - vm_compute. discriminate.
  - intros r E [_ H]. vm_compute in E. injection E as <-. vm_compute in H. discriminate.
Qed.
Print Assumptions cpopw_refuted.

(** C24, the second RV64 implementation (riscv_b_instructions.cc) is right on all its
    instructions, cpopw included. *)
Theorem b_file_correct : forall op a b rd, in_b_file op = true -> iop_args_ok op b ->
  0 <= a < 2 ^ 64 -> 0 <= b < 2 ^ 64 -> 0 <= rd < 2 ^ 64 ->
  exists r, b_exec op a b rd = Some r /\ rd_rel 64 op a b r.
Proof. exact b_exec_ok. Qed.
Print Assumptions b_file_correct.

Example bitmanip_example :
  iop_exec Iso 64 Rolw 0x1234567880000001 4 9 = Some 0x18 /\
  b_exec Rolw 0x1234567880000001 4 9 = Some 0x18 /\
  iop_exec Iso 32 Orcb 0x00100002 0 9 = Some 0x00ff00ff /\
  iop_exec Iso 64 Rev8 0x0102030405060708 0 9 = Some 0x0807060504030201 /\
  b_exec Cpopw 0xffffffff00000003 0 0xffffffffffffffff = Some 2 /\
  bitmanip_op Rolw = true /\ iop_args_ok (ShAdd 2) 5.
Proof. vm_compute. repeat split; discriminate. Qed.

(** C25: carry-less products; RV64 all three, RV32 clmul and clmulh. *)
Theorem clmul_correct_partial : forall o w op a b rd,
  xlen_ok w -> clmul_op op = true -> (op = Clmulr -> w = 32 -> Z.testbit b 31 = false) ->
  0 <= a < 2 ^ w -> 0 <= b < 2 ^ w -> 0 <= rd < 2 ^ w ->
  exists r, iop_exec o w op a b rd = Some r /\ rd_rel w op a b r.
Proof. exact clmul_correct_partial_main. Qed.
Print Assumptions clmul_correct_partial.

(** RV32 clmulr drops the term of rs2's bit 31. *)
Theorem clmulr_rv32_refuted : exists a b, 0 <= a < 2 ^ 32 /\ 0 <= b < 2 ^ 32 /\
  forall r, iop_exec Wrapv 32 Clmulr a b 0 = Some r -> ~ rd_rel 32 Clmulr a b r.
Proof.
  exists 1, (2 ^ 31). split; [lia|split; [lia|]]. intros r E [_ H].
  vm_compute in E. injection E as <-. specialize (H 0 ltac:(lia)). vm_compute in H. discriminate.
Qed.
Print Assumptions clmulr_rv32_refuted.

Example clmul_example : iop_exec Iso 32 Clmul 7 5 0 = Some 27 /\
  iop_exec Iso 64 Clmulr (2 ^ 63) (2 ^ 63) 0 = Some (2 ^ 63) /\ iop_exec Iso 32 Clmulh (2 ^ 31) 6 0 = Some 3.
Proof. vm_compute. auto. Qed.

(** C26: rd after the instruction does not depend on rd before it. *)
Theorem rd_fully_defined_partial : forall o w op a b rd1 rd2,
  op <> Cpopw -> xlen_ok w -> in_xlen w op -> op <> ZextW -> iop_args_ok op b ->
  0 <= a < 2 ^ w -> 0 <= b < 2 ^ w -> 0 <= rd1 < 2 ^ w -> 0 <= rd2 < 2 ^ w ->
  iop_exec o w op a b rd1 = iop_exec o w op a b rd2.
Proof. exact rd_fully_defined_partial_main. Qed.
Print Assumptions rd_fully_defined_partial.
