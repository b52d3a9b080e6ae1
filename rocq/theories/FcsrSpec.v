(** Specification of the floating-point control and status register: its three views (C34) and the
    translation of its flags to and from the host processor (C33).  After the RISC-V "F" extension
    2.2, section "Floating-Point Control and Status Register", and the manuals of the two host
    processors.  Nothing here refers to the model. *)
From Coq Require Import ZArith Bool List.
From Verif Require Import Bits.
Import ListNotations.
Local Open Scope Z_scope.

(** The two host processors the simulator runs on. *)
Inductive host := X86 | Arm.

(** Bits of the accrued exception flags of RISC-V: NX, UF, OF, DZ, NV are bits 0 to 4. *)
Definition NX := 0. Definition UF := 1. Definition OF := 2. Definition DZ := 3. Definition NV := 4.

(** Where the host keeps the same five flags.
    x86 MXCSR: IE 0, DE 1 (denormal operand, no RISC-V counterpart), ZE 2, OE 3, UE 4, PE 5.
    Arm FPSR: IOC 0, DZC 1, OFC 2, UFC 3, IXC 4. *)
Definition host_bit (h : host) (flag : Z) : Z :=
  match h with
  | X86 => if flag =? NV then 0 else if flag =? DZ then 2 else if flag =? OF then 3
           else if flag =? UF then 4 else 5
  | Arm => 4 - flag end.
(** The host flag field has this many bits. *)
Definition host_flag_bits (h : host) : Z := match h with X86 => 6 | Arm => 5 end.

(** The RISC-V flags that a host flag field [x] stands for. *)
Definition flags_of_host (h : host) (x : Z) : Z :=
  fold_right (fun f acc => acc + Z.b2z (Z.testbit x (host_bit h f)) * 2 ^ f) 0 [NX; UF; OF; DZ; NV].

(** Rounding modes of the frm field: RNE 0, RTZ 1, RDN 2, RUP 3, RMM 4; 5 to 7 are illegal, 7 in an
    instruction selects frm. *)
Definition legal_rm (m : Z) : bool := m <=? 4.
Definition DYN := 7.
(** The hosts have no RMM; the simulator documents that it runs RMM as RNE. *)
Definition on_host (m : Z) : Z := if m =? 4 then 0 else m.

(** The three control registers. *)
Inductive creg := Fcsr | Fflags | Frm.

(** What a program does.  [Write]/[Set_]/[Clear]: csrrw, csrrs, csrrc.  [Raise f]: an instruction
    reports flags [f] itself.  [Scalar rm x]: a scalar instruction with rounding field [rm] is
    computed by the host, which raises host flags [x].  [Vector x]: the same for a vector
    instruction, which always rounds by frm. *)
Inductive op :=
| Write (c : creg) (v : Z) | Set_ (c : creg) (v : Z) | Clear (c : creg) (v : Z)
| Raise (f : Z) | Scalar (rm x : Z) | Vector (x : Z).

Definition wf_op (h : host) (o : op) : Prop :=
  match o with
  | Write _ v | Set_ _ v | Clear _ v => 0 <= v < 2 ^ 64
  | Raise f => 0 <= f < 32
  | Scalar rm x => (0 <= rm <= 4 \/ rm = DYN) /\ 0 <= x < 2 ^ host_flag_bits h
  | Vector x => 0 <= x < 2 ^ host_flag_bits h end.

(** The architectural register. *)
Record fp := { frm : Z; fflags : Z }.
Definition fp0 : fp := {| frm := 0; fflags := 0 |}.

Definition read (s : fp) (c : creg) : Z :=
  match c with Fcsr => 32 * frm s + fflags s | Fflags => fflags s | Frm => frm s end.
Definition write (s : fp) (c : creg) (v : Z) : fp :=
  match c with
  | Fcsr => {| frm := v / 32 mod 8; fflags := v mod 32 |}
  | Fflags => {| frm := frm s; fflags := v mod 32 |}
  | Frm => {| frm := v mod 8; fflags := fflags s |} end.
Definition accrue (s : fp) (f : Z) : fp := {| frm := frm s; fflags := Z.lor (fflags s) f |}.

(** The rounding mode an instruction with rounding field [rm] runs in; [None]: illegal. *)
Definition mode (s : fp) (rm : Z) : option Z :=
  if rm =? DYN then (if legal_rm (frm s) then Some (frm s) else None) else Some rm.

(** One step: the new register and, for an instruction computed by the host, the rounding mode the
    host must be in (an outer [None]: no such instruction; an inner [None]: it must not run). *)
Definition step (h : host) (s : fp) (o : op) : fp * option (option Z) :=
  match o with
  | Write c v => (write s c v, None)
  | Set_ c v => (write s c (Z.lor (read s c) v), None)
  | Clear c v => (write s c (Z.ldiff (read s c) v), None)
  | Raise f => (accrue s f, None)
  | Scalar rm x =>
      match mode s rm with
      | Some m => (accrue s (flags_of_host h x), Some (Some (on_host m)))
      | None => (s, Some None) end
  | Vector x =>
      match mode s DYN with
      | Some m => (accrue s (flags_of_host h x), Some (Some (on_host m)))
      | None => (s, Some None) end end.

Fixpoint run (h : host) (s : fp) (l : list op) : fp * list (option (option Z)) :=
  match l with
  | [] => (s, [])
  | o :: l' => let (s1, r) := step h s o in let (s2, rs) := run h s1 l' in (s2, r :: rs) end.

(** Histories that do not use csrrs/csrrc on fcsr as a whole. *)
Definition no_rmw_fcsr (l : list op) : Prop :=
  forall v, ~ In (Set_ Fcsr v) l /\ ~ In (Clear Fcsr v) l.
(** Histories in which no instruction rounding by frm comes after an illegal value of frm. *)
Definition no_dynamic_after_illegal (h : host) (l : list op) : Prop :=
  forall l1 l2, l = l1 ++ l2 -> legal_rm (frm (fst (run h fp0 l1))) = false ->
    forall x, ~ In (Scalar DYN x) l2 /\ ~ In (Vector x) l2.
(** Histories in which frm is legal throughout. *)
Definition legal_throughout (h : host) (l : list op) : Prop :=
  forall l1 l2, l = l1 ++ l2 -> legal_rm (frm (fst (run h fp0 l1))) = true.
(** Histories in which no instruction has a static rounding mode other than the current frm. *)
Definition static_agrees (h : host) (l : list op) : Prop :=
  forall l1 rm x l2, l = l1 ++ Scalar rm x :: l2 -> rm = DYN \/ rm = frm (fst (run h fp0 l1)).
