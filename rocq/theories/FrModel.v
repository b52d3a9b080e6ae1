(** Model of /repo/riscv/riscv_vector_fp_compare_instructions.cc, riscv_vector_fp_reduction_instructions.cc and
    the moves of riscv_vector_fp_unary_instructions.cc. *)
From Coq Require Import ZArith Bool List.
From Verif Require Import Bits Memory IeeeSpec FpSpec FarithSpec IntModel FpModel FarithModel VelemSpec VelemModel VcfgModel VmaskModel FvSpec FvModel FrSpec.
Import ListNotations.
Local Open Scope Z_scope.

(** Model only: a state with other vector state. *)
Definition with_vs (st : fstate) (v : vstate) : fstate := {| vs := v; fpr := fpr st; frm := frm st; fflags := fflags st |}.

(** riscv_vector_fp_compare_instructions.cc:27-144, the lambdas, [f]: float or double.  C++: != is the negation
    of ==, and a > b is b < a. *)
Definition fcmp_op (o : fcmp) (f : fmt) (vs2 vs1 : Z) : bool :=
  match o with
  | Feq => host_eq f vs2 vs1
  | Fle => host_le f vs2 vs1
  | Flt => host_lt f vs2 vs1
  | Fne => negb (host_eq f vs2 vs1)
  | Fgt => host_lt f vs1 vs2
  | Fge => host_le f vs1 vs2 end.
(** The same lines: the switch on sew; the template as for the integer compares (VmaskModel, [mask_binary]).
    There is no ScopedFPStatus: fflags is not written. *)
Definition exec_fcmp (st : fstate) (o : fcmp) (vd vs2 : Z) (s1 : fsrc) (vm : bool) : option fstate :=
  let sw := sew (cfg (vs st)) in
  if existsb (Z.eqb sw) [4; 8] then
    obind (mask_binary true (vs st) sw (fun x y m => if m then fcmp_op o (ctype (8 * sw)) x y else false) vd vs2
             (operand1 (fpr st) Vfadd s1) vm true) (fun v => Some (with_vs st v))
  else Some (fraise st).

(** riscv_vector_fp_reduction_instructions.cc:90-105 MaxMinHelper (not the one of vfmin). *)
Definition RedMaxMinHelper (f : fmt) (operation : Z -> Z -> Z) (vs2 vs1 : Z) : Z :=
  if IsSNaN f vs1 || IsSNaN f vs2 || (IsNaN f vs2 && IsNaN f vs1) then kCanonicalNaN f
  else if IsNaN f vs2 then vs1
  else if IsNaN f vs1 then vs2
  else operation vs2 vs1.
(** The lambdas: riscv_vector_fp_reduction_instructions.cc:38-64 Vfredosum, 66-88 Vfwredosum, 108-141 Vfredmin,
    144-177 Vfredmax.  riscv_vector.isa:1053-1064, 1215-1217: vfredusum names Vfredosum, vfwredusum names
    Vfwredosum.  (vfwredosum, line 1224, names no semantic function and is not modelled.) *)
Definition fred_op (H : host) (o : fred) (b rm acc x : Z) : Z * Z :=
  let f := ctype b in
  match o with
  | Rosum | Rusum => h_add H f rm acc x
  | Rwusum => then_ (to_double H rm x) (fun x => h_add H double rm acc x)
  | Rfmin => (RedMaxMinHelper f (fun acc x => if host_lt f x acc then x else acc) acc x, 0)
  | Rfmax => (RedMaxMinHelper f (fun acc x => if host_lt f acc x then x else acc) acc x, 0) end.
(** The same lines: sizeof Vd, Vs2, Vs1 per SEW. *)
Definition fred_sizes (o : fred) (sew : Z) : option (Z * Z * Z) :=
  if fwidening o then if sew =? 4 then Some (8, 4, 8) else None
  else if sew =? 4 then Some (4, 4, 4) else if sew =? 8 then Some (8, 8, 8) else None.
(** riscv_vector_instruction_helpers.h:673-681, the accumulation loop, with the flags of the host.  Model only: [fuel]. *)
Fixpoint fred_loop (m : Z -> bool) (read : Z -> option Z) (op : Z -> Z -> Z * Z) (fuel : nat) (i n acc fl : Z) : option (Z * Z) :=
  match fuel with
  | O => Some (acc, fl)
  | S k =>
    if i <? n then
      if m i then obind (read i) (fun x => fred_loop m read op k (i + 1) n (fst (op acc x)) (Z.lor fl (snd (op acc x))))
      else fred_loop m read op k (i + 1) n acc fl
    else Some (acc, fl)
  end.
(** The prologues of the functions above and riscv_vector_instruction_helpers.h:645-688 RiscVBinaryReductionVectorOp. *)
Definition exec_fred (H : host) (st : fstate) (o : fred) (vd vs2 vs1 : Z) (vm : bool) : option fstate :=
  let c := cfg (vs st) in
  if negb (rounding_mode_valid (frm st)) then Some (fraise st) else
  match fred_sizes o (sew c) with
  | None => Some (fraise st)
  | Some (wd, w2, w1) =>
    if vexc c then Some st else
    if negb (vstart c =? 0) then Some st else
    let lmul_of w := Z.quot (lmul8 c * w) (sew c) in
    if existsb (fun w => 64 <? lmul_of w) [wd; w2; w1] || existsb (fun w => lmul_of w =? 0) [wd; w2; w1]
    then Some (fraise st) else
    let vb := vlenb c in
    let rf := regs (vs st) in
    obind (read_elem vb rf vs1 w1 0) (fun s =>
    obind (fred_loop (mask_value rf vm) (read_elem vb rf vs2 w2) (fred_op H o (8 * sew c) (host_rm (frm st))) (Z.to_nat (vl c)) 0 (vl c) s (fflags st))
      (fun r => Some {| vs := {| regs := submit vb rf (store_le (copy_reg vb rf vd) 0 (Z.to_nat wd) (fst r)) vd; cfg := set_vstart c 0 |};
                        fpr := fpr st; frm := frm st; fflags := snd r |}))
  end.

(** The loop of Vfmvvf (riscv_vector_fp_unary_instructions.cc:74-87): Set on a buffer of [vb] bytes; beyond it,
    undefined: None.  Model only: [fuel]. *)
Fixpoint fill (vb w v : Z) (fuel : nat) (i n : Z) (buf : mem) : option mem :=
  match fuel with
  | O => Some buf
  | S k => if i <? n then if (i + 1) * w <=? vb then fill vb w v k (i + 1) n (store_le buf (i * w) (Z.to_nat w) v) else None else Some buf
  end.
(** riscv_vector_fp_unary_instructions.cc:64-95 Vfmvvf (vfmv.v.f). *)
Definition exec_vfmv_vf (st : fstate) (vd fs1 : Z) : option fstate :=
  let c := cfg (vs st) in
  if 0 <? vstart c then Some st else if vl c =? 0 then Some st else
  if existsb (Z.eqb (sew c)) [4; 8] then
    obind (fill (vlenb c) (sew c) (wrap (8 * sew c) (fpr st fs1)) (Z.to_nat (vl c)) 0 (vl c) (copy_reg (vlenb c) (regs (vs st)) vd)) (fun buf =>
      Some (with_vs st {| regs := submit (vlenb c) (regs (vs st)) buf vd; cfg := set_vstart c 0 |}))
  else Some (fraise st).
(** riscv_vector_fp_unary_instructions.cc:98-123 Vfmvsf (vfmv.s.f). *)
Definition exec_vfmv_sf (st : fstate) (vd fs1 : Z) : option fstate :=
  let c := cfg (vs st) in
  if 0 <? vstart c then Some st else if vl c =? 0 then Some st else
  if existsb (Z.eqb (sew c)) [4; 8] then
    Some (with_vs st {| regs := submit (vlenb c) (regs (vs st)) (store_le (copy_reg (vlenb c) (regs (vs st)) vd) 0 (Z.to_nat (sew c)) (wrap (8 * sew c) (fpr st fs1))) vd;
                        cfg := set_vstart c 0 |})
  else Some (fraise st).
(** riscv_vector_fp_unary_instructions.cc:126-157 Vfmvfs (vfmv.f.s), with 8-byte registers (db_size = 8). *)
Definition exec_vfmv_fs (st : fstate) (fd vs2 : Z) : option fstate :=
  let c := cfg (vs st) in
  if existsb (Z.eqb (sew c)) [4; 8] then
    obind (read_elem (vlenb c) (regs (vs st)) vs2 (sew c) 0) (fun v =>
      let val := if sew c =? 4 then Z.lor 0xffffffff00000000 v else v in
      Some {| vs := {| regs := regs (vs st); cfg := set_vstart c 0 |}; fpr := (fun r => if r =? fd then val else fpr st r); frm := frm st; fflags := fflags st |})
  else Some (fraise st).
