(** Model of /repo/riscv/riscv_clint.cc and riscv_clint.h. *)
From Coq Require Import ZArith Bool List.
From Verif Require Import Bits ClintSpec.
Import ListNotations.
Local Open Scope Z_scope.

(** riscv_clint.h:106-114 data members, plus the last values passed to
    MipExternalWriteInterface::set_mtip/set_msip ([k_line_t], [k_line_s]). *)
Record clint := {
  k_msip : Z; k_mtime : Z; k_mtimecmp : Z; k_mtip : bool; k_uc : Z; k_period : Z;
  k_line_t : bool; k_line_s : bool }.

(** (helper) field updates of riscv_clint.h:106-114. *)
Definition with_line (k : clint) (b : bool) : clint :=
  {| k_msip := k_msip k; k_mtime := k_mtime k; k_mtimecmp := k_mtimecmp k; k_mtip := b; k_uc := k_uc k;
     k_period := k_period k; k_line_t := b; k_line_s := k_line_s k |}.
(** Model only: record update (time and update counter of riscv_clint.h). *)
Definition with_time (k : clint) (t uc : Z) : clint :=
  {| k_msip := k_msip k; k_mtime := t; k_mtimecmp := k_mtimecmp k; k_mtip := k_mtip k; k_uc := uc;
     k_period := k_period k; k_line_t := k_line_t k; k_line_s := k_line_s k |}.
(** Model only: record update (mtimecmp_ of riscv_clint.h). *)
Definition with_cmp (k : clint) (c : Z) : clint :=
  {| k_msip := k_msip k; k_mtime := k_mtime k; k_mtimecmp := c; k_mtip := k_mtip k; k_uc := k_uc k;
     k_period := k_period k; k_line_t := k_line_t k; k_line_s := k_line_s k |}.

(** The four lines "int bit = ...; if (bit == mtip_) return; set_mtip(bit); mtip_ = bit;",
    riscv_clint.cc:42-45, 62-65, 205-208, 214-217. *)
Definition update_mtip (k : clint) : clint :=
  let bit := k_mtimecmp k <=? k_mtime k in
  if eqb bit (k_mtip k) then k else with_line k bit.

(** riscv_clint.cc:57-67 SetValue (the argument is not used). *)
Definition set_value (k : clint) : clint :=
  let uc := k_uc k + 1 in
  if k_period k <=? uc then update_mtip (with_time k (wrap 64 (k_mtime k + 1)) 0)
  else with_time k (k_mtime k) uc.

(** riscv_clint.cc:195-198 WriteMSip. *)
Definition write_msip (k : clint) (v : Z) : clint :=
  {| k_msip := Z.land v 1; k_mtime := k_mtime k; k_mtimecmp := k_mtimecmp k; k_mtip := k_mtip k; k_uc := k_uc k;
     k_period := k_period k; k_line_t := k_line_t k; k_line_s := negb (Z.land v 1 =? 0) |}.
(** riscv_clint.cc:201-209 WriteMTimeCmpLow, 211-218 WriteMTimeCmpHigh. *)
Definition write_cmp_low (k : clint) (v : Z) : clint :=
  update_mtip (with_cmp k (Z.lor (Z.land (k_mtimecmp k) 0xffffffff00000000) v)).
(** riscv_clint.cc:201-209. *)
Definition write_cmp_high (k : clint) (v : Z) : clint :=
  update_mtip (with_cmp k (Z.lor (Z.land (k_mtimecmp k) 0xffffffff) (wrap 64 (Z.shiftl v 32)))).
(** riscv_clint.cc:221-223 WriteMTimeLow, 225-227 WriteMTimeHigh. *)
Definition write_time_low (k : clint) (v : Z) : clint :=
  with_time k (Z.lor (Z.land (k_mtime k) 0xffffffff00000000) v) (k_uc k).
(** riscv_clint.cc:221-223. *)
Definition write_time_high (k : clint) (v : Z) : clint :=
  with_time k (Z.lor (Z.land (k_mtime k) 0xffffffff) (wrap 64 (Z.shiftl v 32))) (k_uc k).
(** riscv_clint.cc:159-181 Write(offset, value). *)
Definition write (k : clint) (offset v : Z) : clint :=
  if offset =? 0x0000 then write_msip k v
  else if offset =? 0x4000 then write_cmp_low k v
  else if offset =? 0x4004 then write_cmp_high k v
  else if offset =? 0xbff8 then let k1 := write_time_low k v in with_time k1 (k_mtime k1) 0
  else if offset =? 0xbffc then write_time_high k v
  else k.
(** riscv_clint.cc:142-157 Read, 186-192 ReadMTimeLow/High. *)
Definition read (k : clint) (offset : Z) : Z :=
  if offset =? 0x0000 then k_msip k
  else if offset =? 0x4000 then Z.land (k_mtimecmp k) 0xffffffff
  else if offset =? 0x4004 then Z.shiftr (k_mtimecmp k) 32
  else if offset =? 0xbff8 then Z.land (k_mtime k) 0xffffffff
  else if offset =? 0xbffc then Z.shiftr (k_mtime k) 32
  else 0.
(** riscv_clint.cc:71-93 Load (the part that fills the buffer); [size] in bytes.  The default
    case clears sizeof(int) bytes of the buffer and is modelled as zero. *)
Definition load (k : clint) (address size : Z) : Z :=
  let offset := Z.land address 0xffff in
  if size =? 1 then wrap 8 (read k offset)
  else if size =? 2 then wrap 16 (read k offset)
  else if size =? 4 then wrap 32 (read k offset)
  else if size =? 8 then wrap 32 (read k offset) + 2 ^ 32 * wrap 32 (read k (offset + 4))
  else 0.
(** riscv_clint.cc:119-134 Store: the second return of case 8 is unreachable. *)
Definition store (k : clint) (address size value : Z) : clint :=
  let offset := Z.land address 0xffff in
  if size =? 1 then write k offset (wrap 8 value)
  else if size =? 2 then write k offset (wrap 16 value)
  else if size =? 4 then write k offset (wrap 32 value)
  else if size =? 8 then write k offset (wrap 32 value)
  else k.
(** riscv_clint.cc:49-54 Reset. *)
Definition reset (k : clint) : clint := write_msip (write_time_high (write_time_low k 0) 0) 0.
(** riscv_clint.cc:36-46 the constructor; lines start low (mip is zero at reset). *)
Definition init (period : Z) : clint :=
  let k0 := {| k_msip := 0; k_mtime := 0; k_mtimecmp := 0; k_mtip := false; k_uc := 0; k_period := period;
               k_line_t := false; k_line_s := false |} in
  let k1 := set_value k0 in
  let k2 := {| k_msip := k_msip k1; k_mtime := k_mtime k1; k_mtimecmp := k_mtimecmp k1; k_mtip := k_mtip k1;
               k_uc := k_uc k1; k_period := k_period k1; k_line_t := k_mtip k1;
               k_line_s := negb (Z.land (k_msip k1) 1 =? 0) |} in
  update_mtip k2.
(** One API call (riscv_clint.cc:49, 57, 71, 119). *)
Definition step (k : clint) (o : clint_op) : clint :=
  match o with
  | Tick => set_value k
  | Load _ _ => k
  | Store a n v => store k a n v
  | Reset => reset k
  end.
(** Model only: a history of operations. *)
Definition run (period : Z) (l : list clint_op) : clint := fold_left step l (init period).
