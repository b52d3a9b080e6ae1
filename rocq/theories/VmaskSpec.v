(** Specification of the vector instructions that write or read mask registers, of the reductions
    and of the moves (C38, C39, C44, C45, C64, C65, C66), after the "V" specification 1.0, sections 3.4,
    11.4, 11.8, 14, 15, 16.1 and 16.6.  Nothing here refers to the model. *)
From Coq Require Import ZArith Bool List.
From Verif Require Import Bits Memory VelemSpec.
Import ListNotations.
Local Open Scope Z_scope.

(** Integer compares, carry generation, mask logic, mask scans, reductions. *)
Inductive vcmp := Meq | Mne | Mltu | Mlt | Mleu | Mle | Mgtu | Mgt.
Inductive vcarry := Madc | Msbc.
Inductive vlogic := Land | Landn | Lor | Lxor | Lorn | Lnand | Lnor | Lxnor.
Inductive vscan := Msbf | Msif | Msof.
Inductive vred := Rsum | Rand | Ror | Rxor | Rminu | Rmin | Rmaxu | Rmax | Rwsumu | Rwsum.

(** x is the vs2 operand, y the vs1/rs1/imm operand, both unsigned SEW-bit values. *)
Definition cmp_spec (o : vcmp) (b x y : Z) : bool :=
  match o with
  | Meq => x =? y | Mne => negb (x =? y)
  | Mltu => x <? y | Mlt => sgn b x <? sgn b y
  | Mleu => x <=? y | Mle => sgn b x <=? sgn b y
  | Mgtu => y <? x | Mgt => sgn b y <? sgn b x end.
(** The carry (borrow) out of b bits. *)
Definition carry_spec (o : vcarry) (b : Z) (cin : bool) (x y : Z) : bool :=
  match o with Madc => 2 ^ b <=? x + y + Z.b2z cin | Msbc => x - y - Z.b2z cin <? 0 end.
Definition logic_spec (o : vlogic) (x y : bool) : bool :=
  match o with
  | Land => x && y | Landn => x && negb y | Lor => x || y | Lxor => xorb x y
  | Lorn => x || negb y | Lnand => negb (x && y) | Lnor => negb (x || y) | Lxnor => negb (xorb x y) end.

(** v0 bit of element [i], true when unmasked. *)
Definition mask_of (vlenb : Z) (rf : mem) (vm : bool) (i : Z) : bool := vm || vbit vlenb rf 0 i.
(** Active elements of vs2 that are set, below [i]. *)
Definition hits (vlenb : Z) (rf : mem) (vs2 : Z) (vm : bool) (i : Z) : list Z :=
  filter (fun j => mask_of vlenb rf vm j && vbit vlenb rf vs2 j) (zrange i).
Definition scan_spec (o : vscan) (vlenb : Z) (rf : mem) (vs2 : Z) (vm : bool) (i : Z) : bool :=
  let before := match hits vlenb rf vs2 vm i with [] => true | _ => false end in
  match o with
  | Msif => before
  | Msbf => before && negb (vbit vlenb rf vs2 i)
  | Msof => before && vbit vlenb rf vs2 i end.

(** The destination mask register [vd] gets [f i] in the bits [P] selects; every other bit and
    every other register is unchanged. *)
Definition mask_update (vlenb vd : Z) (P : Z -> Prop) (f : Z -> bool) (rf rf' : mem) : Prop :=
  (forall i, 0 <= i < 8 * vlenb -> P i -> vbit vlenb rf' vd i = f i) /\
  (forall i, 0 <= i < 8 * vlenb -> ~ P i -> vbit vlenb rf' vd i = vbit vlenb rf vd i) /\
  (forall a, ~ (vd * vlenb <= a < (vd + 1) * vlenb) -> rf' a = rf a) /\
  byte_mem rf'.

(** Reductions: the value written to vd[0]; [wd] is the destination width in bits, [s] the value of
    vs1[0] (at the destination width), [l] the active elements of vs2 (unsigned, [b] bits). *)
Definition red_spec (o : vred) (b : Z) (s : Z) (l : list Z) : Z :=
  match o with
  | Rsum => wrap b (s + fold_right Z.add 0 l)
  | Rand => fold_right Z.land s l | Ror => fold_right Z.lor s l | Rxor => fold_right Z.lxor s l
  | Rminu => fold_right Z.min s l | Rmaxu => fold_right Z.max s l
  | Rmin => wrap b (fold_right Z.min (sgn b s) (map (sgn b) l))
  | Rmax => wrap b (fold_right Z.max (sgn b s) (map (sgn b) l))
  | Rwsumu => wrap (2 * b) (s + fold_right Z.add 0 l)
  | Rwsum => wrap (2 * b) (s + fold_right Z.add 0 (map (sgn b) l)) end.
Definition widening (o : vred) : bool := match o with Rwsumu | Rwsum => true | _ => false end.
Definition active_elems (vlenb : Z) (rf : mem) (vs2 w : Z) (vm : bool) (vl : Z) : list Z :=
  map (elem vlenb rf vs2 w) (filter (mask_of vlenb rf vm) (zrange vl)).

Example hits_case : hits 8 (fun a => if a =? 8 then 172 else 0) 1 true 6 = [2; 3; 5]. Proof. reflexivity. Qed.
Example scan_case : map (scan_spec Msif 8 (fun a => if a =? 8 then 172 else 0) 1 true) [0; 1; 2; 3; 4] = [true; true; true; false; false].
Proof. reflexivity. Qed.
Example red_min_case : red_spec Rmin 8 5 [200; 7] = 200. Proof. reflexivity. Qed.
