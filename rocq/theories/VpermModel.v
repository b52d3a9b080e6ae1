(** Model of /repo/riscv/riscv_vector_permute_instructions.cc. *)
From Coq Require Import ZArith Bool List.
From Verif Require Import Bits Memory VelemSpec VcfgModel VelemModel VmaskModel.
Import ListNotations.
Local Open Scope Z_scope.

(** riscv_vector_permute_instructions.cc:36-107, 152-206, 258-313: the part common to VrgatherHelper,
    VSlideHelper and VSlide1Helper: register check, loops over registers and elements, clear_vstart.
    [elt rf vi m] is one iteration for element [vi] under mask bit [m]: None on undefined behaviour,
    Some None if nothing is stored.  The mask is indexed by the position [i] of the element in its
    register (lines 82-84, 187-189, 294-296), which equals vector_index mod elements_per_vector. *)
Definition perm (st : vstate) (vd : Z) (vm : bool) (elt : mem -> Z -> bool -> option (option Z)) : option vstate :=
  let c := cfg st in
  if vexc c then Some st else
  let wd := sew c in
  let n := vl c in
  let epv := vlenb c / wd in
  let max_regs := Z.max 1 ((n + epv - 1) / epv) in
  if num_regs vd <? max_regs then Some (raise st) else
  let body rf vi := obind (elt rf vi (mask_value (regs st) vm (vi mod epv))) (fun r => Some (r, false)) in
  obind (regs_loop body (vlenb c) wd vd epv max_regs n (Z.to_nat max_regs)
           (regs st) (vstart c / epv) (vstart c mod epv) (vstart c) false) (fun t =>
    Some {| regs := fst t; cfg := set_vstart c 0 |}).
(** Model only: the switch on SEW found in every instruction of the file. *)
Definition sew_switch (st : vstate) (k : option vstate) : option vstate :=
  if existsb (Z.eqb (sew (cfg st))) [1; 2; 4; 8] then k else Some (raise st).

(** riscv_vector_permute_instructions.cc:85-98: the index (as uint32_t), and the gathered element. *)
Definition gather_elt (vb wd w1 vs2 : Z) (s1 : src) (rf : mem) (vi : Z) (m : bool) : option (option Z) :=
  if m then
    obind (match s1 with Vec r => read_elem vb rf r w1 vi | Scalar x => Some x end) (fun y =>
      let vs1 := wrap 32 y in
      if vs1 <? num_regs vs2 * (vb / wd) then obind (read_elem vb rf vs2 wd vs1) (fun x => Some (Some x))
      else Some (Some 0))
  else Some None.
(** riscv_vector_permute_instructions.cc:34-147 VrgatherHelper with Vrgather (ei16 = false) and
    Vrgatherei16. *)
Definition exec_gather (st : vstate) (ei16 : bool) (vd vs2 : Z) (s1 : src) (vm : bool) : option vstate :=
  let c := cfg st in
  let w1 := if ei16 then 2 else sew c in
  sew_switch st
    (if vexc c then Some st
     else if 64 <? lmul8 c * w1 / sew c then Some (raise st)
     else perm st vd vm (gather_elt (vlenb c) (sew c) w1 vs2 s1)).

(** riscv_vector_permute_instructions.cc:190-198.  The subtraction is in int. *)
Definition slide_elt (vb wd vlmax vs2 offset : Z) (rf : mem) (vi : Z) (m : bool) : option (option Z) :=
  let src_index := vi - offset in
  if negb ((- 2 ^ 31 <=? src_index) && (src_index <? 2 ^ 31)) then None
  else if (0 <=? src_index) && m then
    (if src_index <? vlmax then obind (read_elem vb rf vs2 wd src_index) (fun x => Some (Some x)) else Some (Some 0))
  else Some None.
(** riscv_vector_permute_instructions.cc:208-230 Vslideup (and VSlideHelper 150-206); [x]: rs1 or the
    immediate, read as uint32_t; max_vector_length is compared as unsigned. *)
Definition exec_slideup (st : vstate) (vd vs2 x : Z) (vm : bool) : option vstate :=
  let c := cfg st in
  let offset := wrap 32 x in
  if wrap 32 (vlmax c) <? offset then Some st
  else sew_switch st (perm st vd vm (slide_elt (vlenb c) (sew c) (vlmax c) vs2 (sgn 32 offset))).
(** riscv_vector_permute_instructions.cc:232-253 Vslidedown.  None at offset 2^31: the negation
    overflows. *)
Definition exec_slidedown (st : vstate) (vd vs2 x : Z) (vm : bool) : option vstate :=
  let c := cfg st in
  let offset := wrap 32 x in
  if offset =? 2 ^ 31 then None
  else sew_switch st (perm st vd vm (slide_elt (vlenb c) (sew c) (vlmax c) vs2 (- sgn 32 offset))).

(** riscv_vector_permute_instructions.cc:297-305. *)
Definition slide1_elt (vb wd vlmax vs2 slide_value offset : Z) (rf : mem) (vi : Z) (m : bool) : option (option Z) :=
  if m then
    let src_index := vi - offset in
    if (0 <? src_index) && (src_index <? vlmax) then obind (read_elem vb rf vs2 wd src_index) (fun x => Some (Some x))
    else Some (Some slide_value)
  else Some None.
(** riscv_vector_permute_instructions.cc:256-351 VSlide1Helper with Vslide1up ([up]) and Vslide1down;
    [x]: the scalar operand.  Vfslide1up/down (353-381) differ in accepting SEW = 32 and 64 only and are not
    modelled. *)
Definition exec_slide1 (st : vstate) (up : bool) (vd vs2 x : Z) (vm : bool) : option vstate :=
  let c := cfg st in
  sew_switch st (perm st vd vm
    (slide1_elt (vlenb c) (sew c) (vlmax c) vs2 (wrap (8 * sew c) x) (if up then 1 else -1))).

(** Model only: the register file once the buffer in progress, if any, is submitted. *)
Definition flush (vb vd : Z) (rf : mem) (cur : option (Z * mem)) : mem :=
  match cur with Some (reg, buf) => submit vb rf buf (vd + reg) | None => rf end.
(** riscv_vector_permute_instructions.cc:407-434, the loop of VCompressHelper; [cur] is prev_reg with dest_db.
    Model only: [fuel]. *)
Fixpoint compress_loop (vb wd epv vd vs2 : Z) (sel : Z -> bool) (fuel : nat)
  (rf : mem) (cur : option (Z * mem)) (i n dest : Z) : option mem :=
  match fuel with
  | O => Some (flush vb vd rf cur)
  | S f =>
    if i <? n then
      if sel i then
        let reg := dest / epv in
        let same := match cur with Some (p, _) => p =? reg | None => false end in
        let rf1 := if same then rf else flush vb vd rf cur in
        let buf1 := match cur with Some (_, b) => if same then b else copy_reg vb rf1 (vd + reg) | None => copy_reg vb rf1 (vd + reg) end in
        obind (read_elem vb rf1 vs2 wd i) (fun x =>
          compress_loop vb wd epv vd vs2 sel f rf1 (Some (reg, store_le buf1 (dest mod epv * wd) (Z.to_nat wd) x)) (i + 1) n (dest + 1))
      else compress_loop vb wd epv vd vs2 sel f rf cur (i + 1) n dest
    else Some (flush vb vd rf cur)
  end.
(** riscv_vector_permute_instructions.cc:383-455 VCompressHelper and Vcompress. *)
Definition exec_compress (st : vstate) (vd vs2 vs1 : Z) : option vstate :=
  let c := cfg st in
  sew_switch st (
    if vexc c then Some st else
    let wd := sew c in
    let epv := vlenb c / wd in
    let max_regs := Z.max 1 ((vl c + epv - 1) / epv) in
    if num_regs vd <? max_regs then Some (raise st) else
    obind (compress_loop (vlenb c) wd epv vd vs2 (src_bit (vlenb c) (regs st) vs1) (Z.to_nat (vl c))
             (regs st) None (vstart c) (vl c) 0) (fun rf =>
      Some {| regs := rf; cfg := set_vstart c 0 |})).
