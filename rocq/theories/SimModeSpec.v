(** Specification of the register $mode (C100): it is the privilege mode of the hart.  Does not mention the model. *)
From Coq Require Import ZArith List Bool.
Import ListNotations.
Local Open Scope Z_scope.

(** User, supervisor, machine. *)
Definition legal_mode (m : Z) : Prop := m = 0 \/ m = 1 \/ m = 3.
(** Accesses; [wide] chooses the 64-bit version.  Hart: a trap or return sets the mode.  Debugger: WriteRegister("$mode", v). *)
Inductive mode_op := Hart (m : Z) | Write (wide : bool) (v : Z) | SetBits (wide : bool) (v : Z) | ClearBits (wide : bool) (v : Z) | Debugger (rv64 : bool) (v : Z).
(** The mode after an access, bit by bit for the two bits. *)
Definition next_bit (i m : Z) (o : mode_op) : bool :=
  match o with
  | Hart v | Write _ v | Debugger _ v => Z.testbit v i
  | SetBits _ v => Z.testbit m i || Z.testbit v i
  | ClearBits _ v => Z.testbit m i && negb (Z.testbit v i)
  end.
Definition next_mode (m : Z) (o : mode_op) : Z := Z.b2z (next_bit 0 m o) + 2 * Z.b2z (next_bit 1 m o).
(** Values of the arguments: unsigned numbers of the width given. *)
Definition argument (wide : bool) (v : Z) : Prop := 0 <= v < (if wide then 2 ^ 64 else 2 ^ 32).
Definition op_ok (o : mode_op) : Prop :=
  match o with Hart v => legal_mode v | Write w v | SetBits w v | ClearBits w v => argument w v | Debugger _ v => 0 <= v < 2 ^ 64 end.
