(** Specification of the vector permutation instructions (C40), after the RISC-V "V" specification
    1.0 sections 16.3-16.5.  Nothing here refers to the model. *)
From Coq Require Import ZArith Bool List.
From Verif Require Import Bits Memory VelemSpec VmaskSpec.
Import ListNotations.
Local Open Scope Z_scope.

Definition vlmax_of (vlenb sew lmul8 : Z) : Z := vlenb * lmul8 / (8 * sew).
(** Exactly the elements satisfying [P] of the group [vd] change, to the values [f]. *)
Definition elem_update (vlenb vd w : Z) (P : Z -> Prop) (f : Z -> Z) (rf rf' : mem) : Prop :=
  (forall j, P j -> elem vlenb rf' vd w j = f j) /\
  (forall a, (forall j, P j -> ~ in_elem vlenb vd w j a) -> rf' a = rf a).
Definition active_body (vlenb : Z) (rf : mem) (vm : bool) (vstart vl j : Z) : Prop :=
  vstart <= j < vl /\ mask_of vlenb rf vm j = true.

(** The value of element [j]; [src] gives the elements of vs2. *)
Definition gather_spec (vlmax : Z) (src idx : Z -> Z) (j : Z) : Z := if idx j <? vlmax then src (idx j) else 0.
Definition slideup_spec (src : Z -> Z) (offset j : Z) : Z := src (j - offset).
Definition slidedown_spec (vlmax : Z) (src : Z -> Z) (offset j : Z) : Z :=
  if j + offset <? vlmax then src (j + offset) else 0.
Definition slide1up_spec (src : Z -> Z) (x j : Z) : Z := if j =? 0 then x else src (j - 1).
Definition slide1down_spec (vl : Z) (src : Z -> Z) (x j : Z) : Z := if j =? vl - 1 then x else src (j + 1).
(** vcompress: the indices of the selected elements, in order. *)
Definition selected (vlenb : Z) (rf : mem) (vs1 vl : Z) : list Z := filter (vbit vlenb rf vs1) (zrange vl).

(** Register groups of [g] and [h] registers share no register. *)
Definition disjoint (r g s h : Z) : Prop := r + g <= s \/ s + h <= r.

(** The largest group (8, 4, 2 or 1 registers) that may start at register [r]. *)
Definition widest (r : Z) : Z := if r mod 8 =? 0 then 8 else if r mod 4 =? 0 then 4 else if r mod 2 =? 0 then 2 else 1.
