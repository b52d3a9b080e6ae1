(** Specification of the vector loads and stores (C41, C42, C67, C68, C69), after the RISC-V "V"
    specification 1.0 chapter 7.  Nothing here refers to the model. *)
From Coq Require Import ZArith Bool List.
From Verif Require Import Bits Memory VelemSpec VmaskSpec.
Import ListNotations.
Local Open Scope Z_scope.

(** Addressing modes: unit stride, a stride in bytes, or a vector of byte offsets (group [vs2] of
    elements of [iw] bytes; ordered or unordered). *)
Inductive amode := Unit | Strided (stride : Z) | Indexed (ordered : bool) (iw vs2 : Z).
(** A load or store: mode, element width in bytes coded in the instruction (data width of the unit-stride and
    strided forms; the indexed forms move SEW-wide data), number of fields, data register, base address,
    unmasked.  One field: the non-segment instructions. *)
Record vmem := { am : amode; ew : Z; nf : Z; vreg : Z; base : Z; vm : bool }.

(** Data width in bytes. *)
Definition data_width (sew : Z) (I : vmem) : Z := match am I with Indexed _ _ _ => sew | _ => ew I end.
(** Byte offset of segment [i] from the base. *)
Definition seg_offset (vlenb w : Z) (rf : mem) (I : vmem) (i : Z) : Z :=
  match am I with
  | Unit => i * (nf I * w)
  | Strided s => i * s
  | Indexed _ iw vs2 => elem vlenb rf vs2 iw i end.
(** Address of field [f] of segment [i], before and after truncation to XLEN bits. *)
Definition raw_addr (vlenb w : Z) (rf : mem) (I : vmem) (i f : Z) : Z := base I + seg_offset vlenb w rf I i + f * w.
Definition addr (xlen vlenb w : Z) (rf : mem) (I : vmem) (i f : Z) : Z := raw_addr vlenb w rf I i f mod 2 ^ xlen.

(** Active segments. *)
Definition act (vlenb vstart vl : Z) (rf : mem) (I : vmem) (i : Z) : bool :=
  (vstart <=? i) && (i <? vl) && mask_of vlenb rf (vm I) i.

(** The elements of the body, masked off or not; all their addresses are at most [maxpa]; the address
    computation does not leave a 32-bit address space; the products of index and stride fit in 64 bits. *)
Definition body (vstart vl : Z) (I : vmem) (i f : Z) : Prop := vstart <= i < vl /\ 0 <= f < nf I.
Definition reachable (xlen vlenb w vstart vl maxpa : Z) (rf : mem) (I : vmem) : Prop :=
  forall i f, body vstart vl I i f -> addr xlen vlenb w rf I i f <= maxpa.
Definition in_space (xlen vlenb w vstart vl : Z) (rf : mem) (I : vmem) : Prop :=
  xlen = 64 \/ (xlen = 32 /\ forall i f, body vstart vl I i f -> 0 <= raw_addr vlenb w rf I i f < 2 ^ xlen).
Definition stride_ok (vstart vl : Z) (I : vmem) : Prop :=
  match am I with Strided s => forall i, vstart <= i < vl -> - 2 ^ 63 <= i * s < 2 ^ 63 | _ => True end.

(** Legal instances: the data groups of all fields and the index group are legal. *)
Definition legal_mem (vlenb sew lmul8 vl : Z) (I : vmem) : Prop :=
  let w := data_width sew I in
  config vlenb sew lmul8 vl /\ group sew lmul8 w (vreg I) /\
  1 <= nf I <= 8 /\ nf I * emul8 sew lmul8 w <= 64 /\ vreg I + nf I * nregs sew lmul8 w <= 32 /\
  match am I with Indexed _ iw vs2 => group sew lmul8 iw vs2 | _ => True end.

(** Loads.  Field [f] of segment [i] goes to element [i] of the register group [f] ([g] registers per
    group); every other byte of the register file is unchanged. *)
Definition load_spec (vlenb g w nf vd : Z) (P : Z -> Prop) (a : Z -> Z -> Z) (m rf rf' : mem) : Prop :=
  (forall i f, 0 <= f < nf -> P i -> elem vlenb rf' (vd + f * g) w i = load_le m (a i f) (Z.to_nat w)) /\
  (forall b, (forall i f, 0 <= f < nf -> P i -> ~ in_elem vlenb (vd + f * g) w i b) -> rf' b = rf b).

(** Stores.  The active elements are written one at a time, segment by segment and field by field. *)
Definition store_list (w : Z) (l : list (Z * Z)) (m : mem) : mem :=
  fold_left (fun m av => store_le m (fst av) (Z.to_nat w) (snd av)) l m.
Definition stores (vlenb g w nf vs3 vl : Z) (P : Z -> bool) (a : Z -> Z -> Z) (rf : mem) : list (Z * Z) :=
  flat_map (fun i => map (fun f => (a i f, elem vlenb rf (vs3 + f * g) w i)) (zrange nf)) (filter P (zrange vl)).
Definition store_spec (vlenb g w nf vs3 vl : Z) (P : Z -> bool) (a : Z -> Z -> Z) (rf m m' : mem) : Prop :=
  forall x, m' x = store_list w (stores vlenb g w nf vs3 vl P a rf) m x.

(** Mask loads and stores: ceil(vl/8) bytes, vstart counts bytes. *)
Definition mask_bytes (vl : Z) : Z := (vl + 7) / 8.
