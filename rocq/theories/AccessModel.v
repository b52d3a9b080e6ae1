(** Model of riscv_zicsr_instructions.cc, the memory functions of riscv_state.cc, the
    control transfers of riscv_i_instructions.cc and the load/store helpers of
    riscv_instruction_helpers.h.  Calls of RiscVState::Trap are returned as requests:
    HartModel.v models what Trap does with them. *)
From Coq Require Import ZArith Bool List.
From Verif Require Import Bits CsrSpec CsrModel Memory AccessSpec.
Import ListNotations.
Local Open Scope Z_scope.

(** riscv_zicsr_instructions.cc:48-68 CheckCsrPermission; None: permitted.  [priv] is
    the value of PrivilegeMode, [tvm] the field of mstatus. *)
Definition check_csr_permission (csr_index priv pc : Z) (tvm : bool) : option trap_req :=
  let required_mode := Z.land (Z.shiftr csr_index 8) 3 in
  if priv <? required_mode
  then Some {| t_tval := 0; t_code := 2; t_epc := pc |}
  else if (priv =? 1) && (csr_index =? 0x180) && tvm
  then Some {| t_tval := 0; t_code := 2; t_epc := pc |}
  else None.

(** riscv_zicsr_instructions.cc:72-208 RVZiCsrrw, RVZiCsrrs, RVZiCsrrc, RVZiCsrrwNr,
    RVZiCsrrNw.  [rd] is set before the CSR is updated but from the value read earlier, and
    the source operand is read before either, so the order is not observable.  A failed
    GetCsr only logs. *)
Definition csr_exec {St} (f : csr_file St) (i : csr_instr) (priv pc csr_index new_value : Z) (tvm : bool)
    (st : St) : csr_result St :=
  match check_csr_permission csr_index priv pc tvm with
  | Some t => {| x_st := st; x_rd := None; x_trap := Some t |}
  | None =>
      match cf_read f st csr_index with
      | None => {| x_st := st; x_rd := None; x_trap := None |}
      | Some v =>
          match i with
          | Csrrw => {| x_st := cf_apply f st csr_index (CsrWrite new_value); x_rd := Some v; x_trap := None |}
          | Csrrs => {| x_st := cf_apply f st csr_index (CsrSetBits new_value); x_rd := Some v; x_trap := None |}
          | Csrrc => {| x_st := cf_apply f st csr_index (CsrClearBits new_value); x_rd := Some v; x_trap := None |}
          | CsrrwNr => {| x_st := cf_apply f st csr_index (CsrWrite new_value); x_rd := None; x_trap := None |}
          | CsrrNw => {| x_st := st; x_rd := Some v; x_trap := None |}
          end
      end
  end.

(** (helper) A CSR set of plain registers (CsrModel.v), looked up by number as
    RiscVCsrSet::GetCsr does (riscv_csr.cc:90-97) and accessed with the register width [aw]
    (ReadCsr<T>, riscv_zicsr_instructions.cc:34-44). *)
Definition simple_file (aw : Z) : csr_file (Z -> option simple_csr) :=
  {| cf_read := fun st n => match st n with Some c => Some (as_uint aw c) | None => None end;
     cf_apply := fun st n o k => if k =? n then match st k with Some c => Some (csr_step aw c o) | None => None end
                                 else st k |}.
(** (helper) A sequence of CSR instructions; each semantic function is one call of
    [csr_exec] (riscv_zicsr_instructions.cc:72-208). *)
Definition csr_run {St} (f : csr_file St) (l : list csr_req) (st : St) : St :=
  fold_left (fun st q => x_st (csr_exec f (q_instr q) (q_priv q) (q_pc q) (q_num q) (q_val q) (q_tvm q) st)) l st.

(** riscv_state.cc:515-528 set_max_physical_address (limits riscv_state.cc:436-437). *)
Definition set_max (xlen v : Z) : Z :=
  if xlen =? 32 then Z.min v 0x3fffffffff else Z.min v 0x00ffffffffffffff.

(** riscv_state.cc:530-539 LoadMemory (scalar), [n] = size of the data buffer. *)
Definition load_memory (max : Z) (m : mem) (pc address : Z) (n : nat) : Z + trap_req :=
  if max <? address then inr {| t_tval := address; t_code := 5; t_epc := pc |}
  else inl (load_le m address n).
(** riscv_state.cc:554-562 StoreMemory (scalar). *)
Definition store_memory (max : Z) (m : mem) (pc address : Z) (n : nat) (v : Z) : mem + trap_req :=
  if max <? address then inr {| t_tval := address; t_code := 7; t_epc := pc |}
  else inl (store_le m address n v).
(** The range-for over address_db of riscv_state.cc:544-550 and 566-572. *)
Fixpoint check_addresses (max code pc : Z) (l : list Z) : option trap_req :=
  match l with
  | [] => None
  | a :: l' => if max <? a then Some {| t_tval := a; t_code := code; t_epc := pc |} else check_addresses max code pc l'
  end.
(** riscv_state.cc:541-552 LoadMemory (vector); memory_->Load reads the elements whose mask
    entry is set (mpact-sim memory interface). *)
Definition load_vector (max : Z) (m : mem) (pc : Z) (addrs : list Z) (mask : list bool) (n : nat)
    : list (option Z) + trap_req :=
  match check_addresses max 5 pc addrs with
  | Some t => inr t
  | None => inl (map (fun p : Z * bool => if snd p then Some (load_le m (fst p) n) else None) (combine addrs mask))
  end.
(** riscv_state.cc:564-574 StoreMemory (vector). *)
Definition store_vector (max : Z) (m : mem) (pc : Z) (addrs : list Z) (mask : list bool) (n : nat) (vals : list Z)
    : mem + trap_req :=
  match check_addresses max 7 pc addrs with
  | Some t => inr t
  | None => inl (fold_left (fun m (p : Z * bool * Z) =>
                   if snd (fst p) then store_le m (fst (fst p)) n (snd p) else m)
                 (combine (combine addrs mask) vals) m)
  end.

(** riscv_i_instructions.cc:46-62 IsTargetMisaligned; [misa] is None when the CSR set has
    no misa.  IsaExtensions::kCompressed = 1 << 2. *)
Definition jump_has_c (misa : option Z) : bool :=
  match misa with Some v => negb (Z.land v 4 =? 0) | None => false end.
(** Common tail of RiscVIJal/RiscVIJalr, riscv_i_instructions.cc:152-162, 311-321. *)
Definition do_jump (w : Z) (misa : option Z) (pc size target : Z) : ctl :=
  if negb (jump_has_c misa) && negb (Z.land target 3 =? 0)
  then {| c_pc := None; c_link := None; c_trap := Some {| t_tval := target; t_code := 0; t_epc := pc |} |}
  else {| c_pc := Some target; c_link := Some (wrap w (pc + size)); c_trap := None |}.
(** riscv_i_instructions.cc:148-163 RV32 (& ~0x1), 306-322 RV64 (& max << 1): RiscVIJal. *)
Definition jal (w : Z) (misa : option Z) (pc size offset : Z) : ctl :=
  let target := if w =? 32 then wrap 32 (Z.land (wrap 64 (offset + pc)) (wnot 64 1))
                else Z.land (wrap 64 (offset + pc)) (wrap 64 (Z.shiftl (2 ^ 64 - 1) 1)) in
  do_jump w misa pc size target.
(** riscv_i_instructions.cc:165-181 RV32, 324-341 RV64: RiscVIJalr. *)
Definition jalr (w : Z) (misa : option Z) (pc size reg_base offset : Z) : ctl :=
  let target := if w =? 32 then Z.land (wrap 32 (offset + reg_base)) (wnot 32 1)
                else Z.land (wrap 64 (offset + reg_base)) (wrap 64 (Z.shiftl (2 ^ 64 - 1) 1)) in
  do_jump w misa pc size target.
(** Branch conditions, riscv_i_instructions.cc:356-384 (RV32), 397-425 (RV64). *)
Definition branch_cond (w : Z) (c : branch) (a b : Z) : bool :=
  match c with
  | Beq => a =? b
  | Bne => negb (a =? b)
  | Blt => sgn w a <? sgn w b
  | Bltu => a <? b
  | Bge => sgn w a >=? sgn w b
  | Bgeu => a >=? b
  end.
(** riscv_instruction_helpers.h:341-372 BranchConditional; None: StatusOr::value() on an
    error status (the program aborts). *)
Definition branch_exec (w : Z) (misa : option Z) (c : branch) (pc a b offset : Z) : option ctl :=
  if branch_cond w c a b then
    let target := wrap w (offset + pc) in
    match misa with
    | None => None
    | Some v =>
        if (Z.land v 4 =? 0) && negb (Z.land target 3 =? 0)
        then Some {| c_pc := None; c_link := None; c_trap := Some {| t_tval := pc; t_code := 0; t_epc := pc |} |}
        else Some {| c_pc := Some target; c_link := None; c_trap := None |}
    end
  else Some fall_through.

(** ValueType of the load/store instructions, riscv_i_instructions.cc:429-535 (loads),
    541-583 (stores). *)
Definition ld_size (k : load_kind) : nat :=
  match k with Lb => 1 | Lbu => 1 | Lh => 2 | Lhu => 2 | Lw => 4 | Lwu => 4 | Ld => 8 end.
(** riscv_i_instructions.cc:429-535. *)
Definition ld_signed (k : load_kind) : bool :=
  match k with Lb => true | Lbu => false | Lh => true | Lhu => false | Lw => true | Lwu => false | Ld => true end.
(** riscv_i_instructions.cc:429-535. *)
Definition st_size (k : store_kind) : nat := match k with Sb => 1 | Sh => 2 | Sw => 4 | Sd => 8 end.
(** riscv_instruction_helpers.h:375-391 RVLoad: address computed in URegVal. *)
Definition eff_address (w base offset : Z) : Z := wrap w (base + sgn w offset).
(** riscv_instruction_helpers.h:393-409 RVLoadChild: conversion to the register width. *)
Definition load_child (w : Z) (k : load_kind) (v : Z) : Z :=
  if ld_signed k then wrap w (sgn (8 * Z.of_nat (ld_size k)) v)
  else wrap w (wrap (8 * Z.of_nat (ld_size k)) v).
(** The load instruction and its child, executed back to back (value_db latency 0). *)
Definition load_exec (w max : Z) (m : mem) (k : load_kind) (pc base offset : Z) : Z + trap_req :=
  match load_memory max m pc (eff_address w base offset) (ld_size k) with
  | inl v => inl (load_child w k v)
  | inr t => inr t
  end.
(** riscv_instruction_helpers.h:411-427 RVStore. *)
Definition store_exec (w max : Z) (m : mem) (k : store_kind) (pc base offset value : Z) : mem + trap_req :=
  store_memory max m pc (eff_address w base offset) (st_size k) (wrap (8 * Z.of_nat (st_size k)) value).
