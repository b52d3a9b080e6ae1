(** Specification of the vector floating-point compares (C84), reductions (C85) and scalar moves (C86), after
    the RISC-V "V" specification 1.0, sections 13.13, 14.3, 14.4, 13.16 and 16.2.  Nothing here refers to the model. *)
From Coq Require Import ZArith Bool List.
From Verif Require Import Bits Memory IeeeSpec FpSpec FarithSpec VelemSpec VmaskSpec FvSpec.
Import ListNotations.
Local Open Scope Z_scope.

(** ** Compares: vmfeq, vmfne, vmflt, vmfle, vmfgt, vmfge *)
Inductive fcmp := Feq | Fne | Flt | Fle | Fgt | Fge.
(** [x]: element of vs2, [y]: element of vs1 or the scalar.  A NaN is unordered. *)
Definition fcmp_res (o : fcmp) (f : fmt) (x y : Z) : bool :=
  if either_nan f x y then match o with Fne => true | _ => false end
  else match o with
       | Feq => units f x =? units f y | Fne => negb (units f x =? units f y)
       | Flt => units f x <? units f y | Fle => units f x <=? units f y
       | Fgt => units f y <? units f x | Fge => units f y <=? units f x end.
(** Invalid: a signaling NaN for equality, any NaN for the others. *)
Definition fcmp_flag (o : fcmp) (f : fmt) (x y : Z) : Z :=
  match o with Feq | Fne => nv (either_snan f x y) | _ => nv (either_nan f x y) end.

(** A flag is set iff it was set or an active element raises it. *)
Definition flags_of (P : Z -> Prop) (raised : Z -> Z) (fl fl' : Z) : Prop :=
  forall k, 0 <= k -> Z.testbit fl' k = true <-> Z.testbit fl k = true \/ exists j, P j /\ Z.testbit (raised j) k = true.

(** ** Reductions: vfredosum, vfredusum, vfredmin, vfredmax, vfwredusum.  (An unordered sum may associate the
    operands in any way; here it must be the ordered sum, which is one of them.) *)
Inductive fred := Rosum | Rusum | Rfmin | Rfmax | Rwusum.
Definition fwidening (o : fred) : bool := match o with Rwusum => true | _ => false end.
(** The accumulator [acc] and an element [x], SEW = [b] bits. *)
Definition fred_step (o : fred) (b mode acc x : Z) : Z * Z :=
  let f := ffmt b in
  match o with
  | Rosum | Rusum => ieee_add f mode acc x
  | Rfmin => (min_max f true acc x, nv (either_snan f acc x))
  | Rfmax => (min_max f false acc x, nv (either_snan f acc x))
  | Rwusum => on_wide1 mode x (ieee_add double mode acc) end.
(** The result for the scalar [s] and the active elements [l], in order; the flags of all steps. *)
Fixpoint fred_fold (o : fred) (b mode s : Z) (l : list Z) : Z * Z :=
  match l with
  | [] => (s, 0)
  | x :: l' => let (a, fl) := fred_step o b mode s x in let (r, fl') := fred_fold o b mode a l' in (r, Z.lor fl fl') end.
Definition fred_fmt (o : fred) (b : Z) : fmt := if fwidening o then double else ffmt b.
Definition fred_sews (o : fred) : list Z := if fwidening o then [4] else [4; 8].

(** The whole instruction, with vstart = 0: vd[0] gets the result (a NaN may have any payload) and the flags
    accumulate, unless vl = 0, when nothing is written; nothing else changes. *)
Definition freduction (vlenb sew mode vl : Z) (o : fred) (vd vs2 vs1 : Z) (vm : bool) (rf rf' : mem) (fl fl' : Z) : Prop :=
  let wd := if fwidening o then 2 * sew else sew in
  let r := fred_fold o (8 * sew) mode (elem vlenb rf vs1 wd 0) (active_elems vlenb rf vs2 sew vm vl) in
  (vl = 0 -> fl' = fl /\ forall a, rf' a = rf a) /\
  (0 < vl -> like (fred_fmt o (8 * sew)) (elem vlenb rf' vd wd 0, snd r) r /\ fl' = Z.lor fl (snd r)) /\
  (forall a, ~ in_elem vlenb vd wd 0 a -> rf' a = rf a).
(** What is legal: a supported SEW; vd and vs1 are single registers at every LMUL, also of a widening sum. *)
Definition fred_legal (vlenb sew lmul8 vl : Z) (o : fred) (vs2 : Z) : Prop :=
  config vlenb sew lmul8 vl /\ In sew (fred_sews o) /\ group sew lmul8 sew vs2.

(** Minimum and maximum: no signaling NaN, no zeros of both signs. *)
Definition same_zeros (f : fmt) (l : list Z) : Prop :=
  (forall v, In v l -> is_snan f v = false) /\ exists s, forall v, In v l -> is_zero f v = true -> sign f v = s.
Definition fred_safe (o : fred) (b s : Z) (l : list Z) : Prop :=
  match o with Rfmin | Rfmax => same_zeros (ffmt b) (s :: l) | _ => True end.

(** The host's sums and conversions are never signaling NaNs (IEEE 754, 6.2). *)
Definition host_quiet_sum (H : host) : Prop :=
  forall f rm a b, f = single \/ f = double -> 0 <= rm <= 3 -> 0 <= a < 2 ^ width f -> 0 <= b < 2 ^ width f -> is_snan f (fst (h_add H f rm a b)) = false.

(** ** Moves *)
(** vfmv.v.f: the elements from vstart to vl get the scalar [v]; nothing else changes. *)
Definition fsplat (vlenb sew vstart vl vd v : Z) (rf rf' : mem) : Prop :=
  (forall j, vstart <= j < vl -> elem vlenb rf' vd sew j = v) /\
  (forall a, (forall j, vstart <= j < vl -> ~ in_elem vlenb vd sew j a) -> rf' a = rf a).
(** vfmv.s.f: element 0 gets [v], unless vstart >= vl. *)
Definition fset0 (vlenb sew vstart vl vd v : Z) (rf rf' : mem) : Prop :=
  (vstart < vl -> elem vlenb rf' vd sew 0 = v) /\
  (forall a, vl <= vstart \/ ~ in_elem vlenb vd sew 0 a -> rf' a = rf a).

Example fold_case : fred_fold Rosum 32 0 0x3f800000 [0x33800000; 0x33800000] = (0x3f800000, fNX). Proof. vm_compute. reflexivity. Qed.
Example fold_min_case : fred_fold Rfmin 32 0 0x3f800000 [0x7f800001; 0xbf800000; 0x7fc00000] = (0xbf800000, fNV). Proof. vm_compute. reflexivity. Qed.
