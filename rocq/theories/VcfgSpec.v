(** Specification of the vector configuration (C35) and of the fixed-point CSRs (C43), after the
    RISC-V "V" specification 1.0, chapters 3 and 6.  Nothing here refers to the model. *)
From Coq Require Import ZArith Bool List.
From Verif Require Import Bits.
Import ListNotations.
Local Open Scope Z_scope.

(** The seven vector CSRs. *)
Inductive vcsr := Cvl | Cvtype | Cvlenb | Cvstart | Cvxsat | Cvxrm | Cvcsr.

(** What a program can do to this state.  [Vset rd_x0 rs1_x0 avl vtype]: one of vsetvli, vsetivli,
    vsetvl; the two flags say which register fields are x0 ([rs1_x0 = false] for vsetivli), [avl]
    is the value of rs1 or the immediate, [vtype] the value of rs2 or the immediate.
    [Write]/[Set_]/[Clear]: csrrw, csrrs, csrrc.  [Saturate]: a fixed-point instruction saturates.
    [Done]: another vector instruction completes. *)
Inductive op :=
| Vset (rd_x0 rs1_x0 : bool) (avl vtype : Z)
| Write (c : vcsr) (v : Z) | Set_ (c : vcsr) (v : Z) | Clear (c : vcsr) (v : Z)
| Saturate | Done.

(** Fields of vtype. *)
Definition vlmul (t : Z) : Z := t mod 8.
Definition vsew (t : Z) : Z := t / 8 mod 8.
(** Supported settings: SEW 8..64, LMUL 1/8..8, reserved bits clear. *)
Definition supported (t : Z) : Prop := 0 <= t < 256 /\ vlmul t <> 4 /\ vsew t < 4.

(** VLMAX = LMUL*VLEN/SEW, where LMUL = 2^(signed vlmul) and SEW = 8*2^vsew. *)
Definition VLMAX (vlenb t : Z) : Z :=
  let vlen := 8 * vlenb in let sew := 8 * 2 ^ vsew t in let lm := sgn 3 (vlmul t) in
  if 0 <=? lm then vlen * 2 ^ lm / sew else vlen / (2 ^ (- lm) * sew).

(** vl after vset{i}vl{i} with a supported vtype (section 6.2, 6.3; of the permitted choices for
    VLMAX < AVL < 2*VLMAX the implementation documents VLMAX). *)
Definition new_vl (vlenb : Z) (rd_x0 rs1_x0 : bool) (avl t old_vl : Z) : Z :=
  if rs1_x0 then (if rd_x0 then old_vl else VLMAX vlenb t) else Z.min avl (VLMAX vlenb t).

(** The fixed-point state: rounding mode and saturation flag; the three CSRs that show it. *)
Record fx := { fx_rm : Z; fx_sat : bool }.
Definition fx0 : fx := {| fx_rm := 0; fx_sat := false |}.
Definition fx_read (f : fx) (c : vcsr) : Z :=
  match c with
  | Cvxsat => Z.b2z (fx_sat f) | Cvxrm => fx_rm f
  | Cvcsr => 2 * fx_rm f + Z.b2z (fx_sat f) | _ => 0 end.
Definition fx_write (f : fx) (c : vcsr) (v : Z) : fx :=
  match c with
  | Cvxsat => {| fx_rm := fx_rm f; fx_sat := Z.odd v |}
  | Cvxrm => {| fx_rm := v mod 4; fx_sat := fx_sat f |}
  | Cvcsr => {| fx_rm := v / 2 mod 4; fx_sat := Z.odd v |}
  | _ => f end.
(** csrrs and csrrc read, modify and write back. *)
Definition fx_step (f : fx) (o : op) : fx :=
  match o with
  | Write c v => fx_write f c v
  | Set_ c v => fx_write f c (Z.lor (fx_read f c) v)
  | Clear c v => fx_write f c (Z.ldiff (fx_read f c) v)
  | Saturate => {| fx_rm := fx_rm f; fx_sat := true |}
  | Vset _ _ _ _ | Done => f end.
Definition fx_run (l : list op) : fx := fold_left fx_step l fx0.

(** Histories that use csrrw but not csrrs/csrrc on the fixed-point CSRs. *)
Definition plain (o : op) : Prop := match o with Set_ _ _ | Clear _ _ => False | _ => True end.

Example VLMAX_m8_e8 : VLMAX 16 3 = 128. Proof. reflexivity. Qed.
Example VLMAX_mf8_e8 : VLMAX 16 5 = 2. Proof. reflexivity. Qed.
Example VLMAX_m2_e64 : VLMAX 16 25 = 4. Proof. reflexivity. Qed.
