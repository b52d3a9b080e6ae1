(** Model of $mode (C100): riscv_sim_csrs.cc:22-37, riscv_sim_csrs.h:28-40, RiscVSimpleCsr<uint32_t> (riscv_csr.h:442-463),
    ReadRegister and WriteRegister of a CSR (riscv_top.cc:528-545, 578-598). *)
From Coq Require Import ZArith List Bool.
From Verif Require Import SimModeSpec.
Import ListNotations.
Local Open Scope Z_scope.

(** Model only: static_cast<uint32_t>. *)
Definition u32 (v : Z) : Z := v mod 2 ^ 32.
(** Model only: ~ on uint32_t. *)
Definition not32 (v : Z) : Z := Z.lxor (u32 v) (2 ^ 32 - 1).
(** Model only: ~ on uint64_t. *)
Definition not64 (v : Z) : Z := Z.lxor (v mod 2 ^ 64) (2 ^ 64 - 1).
(** riscv_sim_csrs.h:31, read_mask_ and write_mask_. *)
Definition read_mask : Z := 3.
(** riscv_sim_csrs.h:31. *)
Definition write_mask : Z := 3.
(** riscv_sim_csrs.cc:22-24; the mode is privilege_mode_ of the state. *)
Definition GetUint32 (mode : Z) : Z := u32 mode.
(** riscv_sim_csrs.cc:26-28. *)
Definition GetUint64 (mode : Z) : Z := mode.
(** riscv_sim_csrs.cc:30-36, Set of either width: a static_cast to PrivilegeMode, of type uint64_t. *)
Definition SetMode (value : Z) : Z := value.
(** riscv_csr.h:443-448, AsUint32 and AsUint64. *)
Definition AsUint32 (mode : Z) : Z := Z.land (GetUint32 mode) read_mask.
(** riscv_csr.h:446-448. *)
Definition AsUint64 (mode : Z) : Z := Z.land (GetUint64 mode) read_mask.
(** riscv_csr.h:450-453, Write(uint32_t). *)
Definition Write32 (mode value : Z) : Z := SetMode (Z.lor (Z.land (u32 value) write_mask) (Z.land (GetUint32 mode) (not32 write_mask))).
(** riscv_csr.h:454-457, Write(uint64_t); ~write_mask_ is of type uint32_t. *)
Definition Write64 (mode value : Z) : Z := SetMode (Z.lor (Z.land (u32 value) write_mask) (Z.land (GetUint64 mode) (not32 write_mask))).
(** riscv_csr.h:459-463 (SetBits, ClearBits), riscv_top.cc:586-594 (the debugger), set_privilege_mode (riscv_state.h:379). *)
Definition mode_step (mode : Z) (o : mode_op) : Z :=
  match o with
  | Hart m => m
  | Write false v => Write32 mode v
  | Write true v => Write64 mode v
  | SetBits false v => Write32 mode (Z.lor (GetUint32 mode) v)
  | SetBits true v => Write64 mode (Z.lor (GetUint64 mode) v)
  | ClearBits false v => Write32 mode (Z.land (GetUint32 mode) (not32 v))
  | ClearBits true v => Write64 mode (Z.land (GetUint64 mode) (not64 v))
  | Debugger false v => SetMode (u32 v)
  | Debugger true v => SetMode v
  end.
(** riscv_state.h:446: the mode at the start is machine mode; then any accesses. *)
Definition mode_after (l : list mode_op) : Z := fold_left mode_step l 3.
