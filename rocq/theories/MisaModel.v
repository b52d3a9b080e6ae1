(** Model of misa (C95): riscv_misa.cc, riscv_misa.h, the parts of RiscVSimpleCsr<uint64_t> (riscv_csr.h:379-505) it
    inherits, its initial values (riscv_state.cc:61-66, 86-91) and the flag --misa of the simulators. *)
From Coq Require Import ZArith List Bool.
From Verif Require Import MisaSpec.
Import ListNotations.
Local Open Scope Z_scope.

(** riscv_misa.cc:31-35 StretchMisa32. *)
Definition StretchMisa32 (value : Z) : Z := Z.lor (Z.shiftl (Z.land value 0xc0000000) 32) (Z.land value 0x03ffffff).
(** riscv_misa.cc:37-40 CompressMisa64 (the mask 0x3fff'ffff is the code's). *)
Definition CompressMisa64 (value : Z) : Z := Z.lor (Z.land (Z.shiftr value 32) 0xc0000000) (Z.land value 0x3fffffff).
(** riscv_misa.cc:48-49: the read mask; riscv_misa.cc:50, read_mask_32_. *)
Definition read_mask : Z := 0xc000000003ffffff.
(** riscv_misa.cc:50. *)
Definition read_mask_32 : Z := CompressMisa64 read_mask.

(** The state is value_ (riscv_csr.h:496), a uint64_t.  riscv_misa.cc:43-51, the constructors for a uint32_t and a
    uint64_t. *)
Definition construct (w initial_value : Z) : Z := if w =? 32 then StretchMisa32 initial_value else initial_value.
(** riscv_csr.h:466 GetUint64. *)
Definition GetUint64 (c : Z) : Z := c.
(** riscv_misa.cc:59-62 GetUint32. *)
Definition GetUint32 (c : Z) : Z := CompressMisa64 (GetUint64 c).
(** riscv_csr.h:446-448 AsUint64; riscv_misa.cc:54-57 AsUint32. *)
Definition AsUint (w c : Z) : Z := if w =? 32 then Z.land (GetUint32 c) read_mask_32 else Z.land (GetUint64 c) read_mask.
(** riscv_misa.cc:64-72, Write: the value is ignored. *)
Definition misa_write (w v c : Z) : Z := c.
(** riscv_csr.h:459-460 SetBits, which calls the virtual Write. *)
Definition misa_set_bits (w v c : Z) : Z := misa_write w (Z.lor (if w =? 32 then GetUint32 c else GetUint64 c) v) c.
(** riscv_csr.h:462-463 ClearBits. *)
Definition misa_clear_bits (w v c : Z) : Z := misa_write w (Z.land (if w =? 32 then GetUint32 c else GetUint64 c) (Z.lnot v)) c.
(** riscv_csr.h:469 Set(uint64_t). *)
Definition misa_set64 (v c : Z) : Z := v.
(** riscv_csr.h:468 Set(uint32_t), not overridden. *)
Definition misa_set32 (v c : Z) : Z := v.
(** Model only: one access; CSR instructions call Write, SetBits and ClearBits (riscv_zicsr_instructions.cc:70-200). *)
Definition access_step (c : Z) (a : access) : Z :=
  match a with
  | Write w v => misa_write w v c
  | SetBits w v => misa_set_bits w v c
  | ClearBits w v => misa_clear_bits w v c
  | Set64 v => misa_set64 v c
  end.
(** Model only: a history of accesses. *)
Definition access_steps (c : Z) (l : list access) : Z := fold_left access_step l c.

(** riscv_misa.cc:74-76; kSupervisorMode is 1 << 18 (riscv_state.h:136). *)
Definition HasSupervisorMode (c : Z) : bool := negb (Z.land (GetUint32 c) (Z.shiftl 1 18) =? 0).
(** riscv_misa.cc:78. *)
Definition HasUserMode (c : Z) : bool := true.
(** riscv_misa.cc:80-89; RVUnknown is None.  The mask 0xb11 is the code's. *)
Definition Xlen (c : Z) : option Z :=
  let f := Z.land (Z.shiftr (GetUint64 c) 62) 0xb11 in
  if f =? 1 then Some 32 else if f =? 2 then Some 64 else None.
(** riscv_i_instructions.cc:49-54 and riscv_instruction_helpers.h:354-361, has_c_extension: kCompressed is 1 << 2. *)
Definition has_c_extension (c : Z) : bool := negb (Z.land (GetUint64 c) (Z.shiftl 1 2) =? 0).

(** riscv_state.cc:61-66 and 86-91, kMisaInitialValue: M I G F D C A S. *)
Definition kMisaInitialValue (w : Z) : Z :=
  fold_left Z.lor (map (Z.shiftl 1) [12; 8; 6; 5; 3; 2; 0; 18]) (Z.shiftl (if w =? 32 then 1 else 2) (w - 2)).
(** rv32g_sim.cc:313-321, rv32gv_sim.cc:317-325, rv64g_sim.cc and rv64gv_sim.cc: --misa, a uint64_t, in all simulators. *)
Definition flag_misa (w : Z) (flag : option Z) : Z :=
  let c := construct w (kMisaInitialValue w) in match flag with Some v => misa_set64 v c | None => c end.
