(** Model of RiscVVectorState, its CSRs and the vsetvl instruction
    (/repo/riscv/riscv_vector_state.{h,cc}, riscv_vector_memory_instructions.cc:152-208). *)
From Coq Require Import ZArith Bool List.
From Verif Require Import Bits VcfgSpec.
Import ListNotations.
Local Open Scope Z_scope.

(** riscv_vector_state.h:170-182, the data members of RiscVVectorState; [stored] holds the [value_]
    member that each CSR object inherits from RiscVSimpleCsr (riscv_csr.h:480).  [vexc] is
    vector_exception_. *)
Record vcfg := {
  vlenb : Z; vtype : Z; vl : Z; vlmax : Z; lmul8 : Z; sew : Z; vta : bool; vma : bool;
  vstart : Z; vxsat : bool; vxrm : Z; vexc : bool; stored : vcsr -> Z }.

(** riscv_vector_state.h:170-182 and riscv_vector_state.cc:139-160: initial values.  vtype_ has no
    initialiser, so its initial value is a parameter. *)
Definition init (vlenb vtype0 : Z) : vcfg :=
  {| vlenb := vlenb; vtype := vtype0; vl := 0; vlmax := 0; lmul8 := 8; sew := 1;
     vta := false; vma := false; vstart := 0; vxsat := false; vxrm := 0; vexc := false;
     stored := fun c => match c with Cvlenb => vlenb | _ => 0 end |}.

(** riscv_vector_state.h:135 set_vector_length. *)
Definition set_vl (s : vcfg) (v : Z) : vcfg :=
  {| vlenb := vlenb s; vtype := vtype s; vl := v; vlmax := vlmax s; lmul8 := lmul8 s; sew := sew s;
     vta := vta s; vma := vma s; vstart := vstart s; vxsat := vxsat s; vxrm := vxrm s;
     vexc := vexc s; stored := stored s |}.
(** riscv_vector_state.h:132-133 clear_vstart, set_vstart. *)
Definition set_vstart (s : vcfg) (v : Z) : vcfg :=
  {| vlenb := vlenb s; vtype := vtype s; vl := vl s; vlmax := vlmax s; lmul8 := lmul8 s; sew := sew s;
     vta := vta s; vma := vma s; vstart := v; vxsat := vxsat s; vxrm := vxrm s;
     vexc := vexc s; stored := stored s |}.
(** riscv_vector_state.h:150 set_vxsat. *)
Definition set_vxsat (s : vcfg) (v : bool) : vcfg :=
  {| vlenb := vlenb s; vtype := vtype s; vl := vl s; vlmax := vlmax s; lmul8 := lmul8 s; sew := sew s;
     vta := vta s; vma := vma s; vstart := vstart s; vxsat := v; vxrm := vxrm s;
     vexc := vexc s; stored := stored s |}.
(** riscv_vector_state.h:152 set_vxrm. *)
Definition set_vxrm (s : vcfg) (v : Z) : vcfg :=
  {| vlenb := vlenb s; vtype := vtype s; vl := vl s; vlmax := vlmax s; lmul8 := lmul8 s; sew := sew s;
     vta := vta s; vma := vma s; vstart := vstart s; vxsat := vxsat s; vxrm := Z.land v 3;
     vexc := vexc s; stored := stored s |}.
(** riscv_vector_state.h:142 set_vector_exception. *)
Definition set_vexc (s : vcfg) : vcfg :=
  {| vlenb := vlenb s; vtype := vtype s; vl := vl s; vlmax := vlmax s; lmul8 := lmul8 s; sew := sew s;
     vta := vta s; vma := vma s; vstart := vstart s; vxsat := vxsat s; vxrm := vxrm s;
     vexc := true; stored := stored s |}.
(** riscv_csr.h:463-464 Set: assign [value_]. *)
Definition set_stored (s : vcfg) (c : vcsr) (v : Z) : vcfg :=
  {| vlenb := vlenb s; vtype := vtype s; vl := vl s; vlmax := vlmax s; lmul8 := lmul8 s; sew := sew s;
     vta := vta s; vma := vma s; vstart := vstart s; vxsat := vxsat s; vxrm := vxrm s;
     vexc := vexc s;
     stored := fun d => if match c, d with Cvl, Cvl | Cvtype, Cvtype | Cvlenb, Cvlenb
       | Cvstart, Cvstart | Cvxsat, Cvxsat | Cvxrm, Cvxrm | Cvcsr, Cvcsr => true | _, _ => false end
       then v else stored s d |}.

(** riscv_vector_state.cc:165, lmul8_values. *)
Definition lmul8_values : list Z := [8; 16; 32; 64; 0; 1; 2; 4].
(** riscv_vector_state.cc:166, sew_values (in bits). *)
Definition sew_values : list Z := [8; 16; 32; 64; 0; 0; 0; 0].

(** riscv_vector_state.cc:164-184 SetVectorType; None is the division by zero of line 182 when the
    element width selector is reserved. *)
Definition set_vector_type (s : vcfg) (t : Z) : option vcfg :=
  let lm := nth (Z.to_nat (Z.land t 7)) lmul8_values 0 in
  let sw := Z.shiftr (nth (Z.to_nat (Z.land (Z.shiftr t 3) 7)) sew_values 0) 3 in
  if 8 * sw =? 0 then None else Some
  {| vlenb := vlenb s; vtype := t; vl := vl s; vlmax := Z.quot (vlenb s * lm) (8 * sw);
     lmul8 := lm; sew := sw; vta := Z.testbit t 6; vma := Z.testbit t 7;
     vstart := vstart s; vxsat := vxsat s; vxrm := vxrm s; vexc := vexc s; stored := stored s |}.

(** riscv_vector_memory_instructions.cc:155-208 Vsetvl.  The result's second component is the value
    written to rd.  Both operands are read as uint32_t (lines 158, 182). *)
Definition vsetvl (s : vcfg) (rd_zero rs1_zero : bool) (src0 src1 : Z) : option (vcfg * option Z) :=
  let t := Z.land (wrap 32 src1) 255 in
  let prev := vtype s in
  match set_vector_type s t with
  | None => None
  | Some s1 =>
    if rs1_zero && rd_zero then
      if negb (vlmax s =? vlmax s1) then
        match set_vector_type s1 prev with None => None | Some s2 => Some (set_vexc s2, None) end
      else Some (set_vl s1 (vlmax s1), None)
    else
      let v := if negb rs1_zero && (wrap 32 src0 <=? wrap 32 (vlmax s1)) then wrap 32 src0
               else wrap 32 (vlmax s1) in
      Some (set_vl s1 (sgn 32 v), if rd_zero then None else Some v)
  end.

(** riscv_vector_state.cc:76, 84, 92, 102, 112, 124-128: AsUint32 of each CSR object; vlenb is a
    plain RiscVSimpleCsr (line 144) with read mask 0xffffffff. *)
Definition read (s : vcfg) (c : vcsr) : Z :=
  match c with
  | Cvl => wrap 32 (vl s) | Cvtype => vtype s | Cvlenb => stored s Cvlenb
  | Cvstart => wrap 32 (vstart s) | Cvxsat => if vxsat s then 1 else 0 | Cvxrm => vxrm s
  | Cvcsr => Z.lor (wrap 32 (Z.shiftl (Z.land (vxrm s) 3) 1)) (if vxsat s then 1 else 0) end.

(** riscv_vector_state.cc:94, 104, 114-116, 130-135: the overridden Write functions; vl, vtype and
    vlenb keep RiscVSimpleCsr::Write (riscv_csr.h:445-452) with write mask 0.  The uint64_t
    overloads truncate to uint32_t. *)
Definition write (s : vcfg) (c : vcsr) (v : Z) : vcfg :=
  let v := wrap 32 v in
  match c with
  | Cvl | Cvtype | Cvlenb => set_stored s c (Z.lor (Z.land v 0) (Z.land (stored s c) (wnot 32 0)))
  | Cvstart => set_vstart s (sgn 32 v)
  | Cvxsat => set_vxsat s (Z.odd (Z.land v 1))
  | Cvxrm => set_vxrm s (Z.land v 3)
  | Cvcsr => set_vxsat (set_vxrm s (Z.land (Z.shiftr v 1) 3)) (Z.odd (Z.land v 1)) end.

(** riscv_csr.h:454-458 SetBits and ClearBits: read [value_] (GetUint32), not AsUint32. *)
Definition set_bits (s : vcfg) (c : vcsr) (v : Z) : vcfg := write s c (Z.lor (stored s c) v).
(** riscv_csr.h:457-458 ClearBits. *)
Definition clear_bits (s : vcfg) (c : vcsr) (v : Z) : vcfg := write s c (Z.land (stored s c) (Z.lnot v)).

(** Model only: one step of a history. *)
Definition step (s : vcfg) (o : op) : option (vcfg * option Z) :=
  match o with
  | Vset rd0 rs0 a t => vsetvl s rd0 rs0 a t
  | Write c v => Some (write s c v, None)
  | Set_ c v => Some (set_bits s c v, None)
  | Clear c v => Some (clear_bits s c v, None)
  | Saturate => Some (set_vxsat s true, None)
  | Done => Some (set_vstart s 0, None) end.

(** Model only: a whole history; None once an operation has undefined behaviour. *)
Fixpoint run (s : vcfg) (l : list op) : option vcfg :=
  match l with [] => Some s | o :: l => match step s o with None => None | Some (s', _) => run s' l end end.
