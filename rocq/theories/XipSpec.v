(** Specification of the interrupt pending/enable registers (C06, C07, C55). *)
From Coq Require Import ZArith Bool List.
From Verif Require Import CsrSpec.
Import ListNotations.
Local Open Scope Z_scope.

(** Interrupt numbers that exist: user/supervisor/machine software, timer, external. *)
Definition irq_numbers : list Z := [0; 1; 3; 4; 5; 7; 8; 9; 11].
Definition is_irq (i : Z) : bool := existsb (Z.eqb i) irq_numbers.
(** Bits of mip software can write directly: all but MTIP (7) and MEIP (11). *)
Definition mip_writable (i : Z) : bool := is_irq i && negb (i =? 7) && negb (i =? 11).

Inductive ip_op :=
| IpField (i v : Z)          (* set_meip, set_mtip, ... : field update by a device or the simulator *)
| IpLine (v : Z)             (* set_ext_seip: level of the external supervisor line *)
| IpWord (w : Z) (o : csr_op). (* CSR access of width w *)

(** Abstract state of bit [i]: software/device-owned latch per bit, plus the line. *)
Record ip_spec := { isp_latch : Z -> bool; isp_line : bool }.
Definition ip_spec_step (s : ip_spec) (o : ip_op) : ip_spec :=
  match o with
  | IpField j v => {| isp_latch := fun i => if i =? j then Z.odd v else isp_latch s i; isp_line := isp_line s |}
  | IpLine v => {| isp_latch := isp_latch s; isp_line := negb (v =? 0) |}
  | IpWord _ o => {| isp_latch := fun i => if mip_writable i then bit_step i (isp_latch s i) o else isp_latch s i;
                     isp_line := isp_line s |}
  end.
(** Reading bit [i]. *)
Definition ip_spec_read (s : ip_spec) (i : Z) : bool :=
  is_irq i && (isp_latch s i || ((i =? 9) && isp_line s)).

Definition ip_op_ok (o : ip_op) : bool :=
  match o with
  | IpField i v => is_irq i && (0 <=? v) && (v <? 2 ^ 64)
  | IpLine _ => true
  | IpWord w (CsrWrite v) | IpWord w (CsrSetBits v) | IpWord w (CsrClearBits v) =>
      ((w =? 32) || (w =? 64)) && (0 <=? v) && (v <? 2 ^ w)
  end.

(** A history is quiet if no field/word update happens while the line is high. *)
Fixpoint quiet (line : bool) (ops : list ip_op) : bool :=
  match ops with
  | [] => true
  | IpLine v :: ops' => quiet (negb (v =? 0)) ops'
  | _ :: ops' => negb line && quiet line ops'
  end.
