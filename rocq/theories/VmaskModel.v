(** Model of the vector instructions that write or read mask registers, of the reductions, of viota and
    vid and of the scalar and whole-register moves: /repo/riscv/riscv_vector_instruction_helpers.h and
    riscv_vector_{opi,opm,unary,reduction}_instructions.cc.  In every loop the span indices stay
    below vl / 8, which is at most the register length in every configuration vsetvl can produce. *)
From Coq Require Import ZArith Bool List.
From Verif Require Import Bits Memory VelemSpec VmaskSpec VcfgModel VelemModel.
Import ListNotations.
Local Open Scope Z_scope.

(** riscv_vector_instruction_helpers.h:76, 126: dest_span[i >> 3] &= ~(1 << (i & 7)) (also
    riscv_vector_unary_instructions.cc:330, 365, 403). *)
Definition clear_bit (buf : mem) (i : Z) : mem :=
  fun k => if k =? Z.shiftr i 3 then Z.land (buf k) (wnot 8 (wrap 8 (Z.shiftl 1 (Z.land i 7)))) else buf k.
(** riscv_vector_instruction_helpers.h:79-80, 129-130: dest_span[i >> 3] |= v << (i & 7) (also
    riscv_vector_unary_instructions.cc:322, 363, 400). *)
Definition or_bit (buf : mem) (i : Z) (v : bool) : mem :=
  fun k => if k =? Z.shiftr i 3 then Z.lor (buf k) (wrap 8 (Z.shiftl (Z.b2z v) (Z.land i 7))) else buf k.

(** riscv_vector_instruction_helpers.h:67-81 and 111-131: the loop over the elements; [body i] is None on
    undefined behaviour, Some None for `continue`.  Model only: [fuel]. *)
Fixpoint mask_loop (body : Z -> option (option bool)) (fuel : nat) (buf : mem) (i n : Z) : option mem :=
  match fuel with
  | O => Some buf
  | S f =>
    if i <? n then
      obind (body i) (fun r =>
        mask_loop body f (match r with Some v => or_bit (clear_bit buf i) i v | None => buf end) (i + 1) n)
    else Some buf
  end.
(** riscv_vector_instruction_helpers.h:44-86 RiscVSetMaskBinaryVectorMaskOp (skip = false) and 88-136
    RiscVMaskBinaryVectorMaskOp (skip = true): the element function [op] gets the mask bit.  The
    latter is only called with three sources, so mask_used is true there. *)
Definition mask_binary (skip : bool) (st : vstate) (w : Z) (op : Z -> Z -> bool -> bool)
  (vd vs2 : Z) (s1 : src) (vm mask_used : bool) : option vstate :=
  let c := cfg st in
  if vexc c then Some st else
  let body i :=
    let m := mask_value (regs st) vm i in
    if skip && (mask_used && negb m) then Some None else
    obind (read_elem (vlenb c) (regs st) vs2 w i) (fun x =>
    obind (read_src1 (vlenb c) (regs st) w s1 i) (fun y => Some (Some (op x y (mask_used && m))))) in
  obind (mask_loop body (Z.to_nat (vl c)) (copy_reg (vlenb c) (regs st) vd) (vstart c) (vl c)) (fun buf =>
    Some {| regs := submit (vlenb c) (regs st) buf vd; cfg := set_vstart c 0 |}).

(** riscv_vector_opi_instructions.cc:513-736, the element functions of Vmseq ... Vmsgt on [b]-bit types. *)
Definition cmp_op (o : vcmp) (b x y : Z) : bool :=
  match o with
  | Meq => x =? y                          (* 513-539 *)
  | Mne => negb (x =? y)                   (* 543-568 *)
  | Mltu => x <? y                         (* 571-596 *)
  | Mlt => sgn b x <? sgn b y              (* 599-624 *)
  | Mleu => x <=? y                        (* 627-652 *)
  | Mle => sgn b x <=? sgn b y             (* 655-680 *)
  | Mgtu => y <? x                         (* 683-708 *)
  | Mgt => sgn b y <? sgn b x              (* 711-736 *)
  end.
(** The same lines: the switch on SEW, and riscv_vector_instruction_helpers.h:140-152
    RiscVBinaryVectorMaskOp. *)
Definition exec_cmp (st : vstate) (o : vcmp) (vd vs2 : Z) (s1 : src) (vm : bool) : option vstate :=
  let sew := sew (cfg st) in
  if existsb (Z.eqb sew) [1; 2; 4; 8] then
    mask_binary true st sew (fun x y m => if m then cmp_op o (8 * sew) x y else false) vd vs2 s1 vm true
  else Some (raise st).

(** riscv_vector_opi_instructions.cc:973-1023 Vmadc and 1061-1096 Vmsbc, the element functions.  At
    1009-1010, `vs1 & 0xff + vs2 & 0xff + mask` parses as `vs1 & (0xff + vs2) & (0xff + mask)`. *)
Definition carry_op (o : vcarry) (sew x y : Z) (m : bool) : bool :=
  match o with
  | Madc =>
      if sew =? 8 then
        let carry := Z.shiftr (Z.land (Z.land y (wrap 64 (255 + x))) (wrap 64 (255 + Z.b2z m))) 8 in
        let sum := wrap 64 (Z.shiftr y 8 + Z.shiftr x 8 + carry) in
        negb (Z.shiftr sum 56 =? 0)
      else negb (Z.shiftr (wrap (16 * sew) (x + y + Z.b2z m)) (8 * sew) =? 0)
  | Msbc => if sew =? 8 then (if x <? y then true else if x =? y then m else false) else x <? Z.b2z m + y
  end.
(** The same lines: the switch on SEW; the fourth source is the vm bit (riscv_vector.isa:566-586), and the
    mask operand is all ones when it is set (riscv_getters_vector.h:119-128). *)
Definition exec_carry (st : vstate) (o : vcarry) (vd vs2 : Z) (s1 : src) (vm : bool) : option vstate :=
  let sew := sew (cfg st) in
  if existsb (Z.eqb sew) [1; 2; 4; 8] then
    mask_binary false st sew (carry_op o sew) vd vs2 s1 vm (negb vm)
  else Some (raise st).

(** riscv_vector_opm_instructions.cc:228-277, the byte functions (returned as uint8_t). *)
Definition logic_op (o : vlogic) (x y : Z) : Z :=
  wrap 8 match o with
  | Landn => Z.land x (Z.lnot y)           (* 228-234 *)
  | Land => Z.land x y                     (* 235-240 *)
  | Lor => Z.lor x y                       (* 241-246 *)
  | Lxor => Z.lxor x y                     (* 247-252 *)
  | Lorn => Z.lor x (Z.lnot y)             (* 253-258 *)
  | Lnand => Z.lnot (Z.land x y)           (* 259-264 *)
  | Lnor => Z.lnot (Z.lor x y)             (* 265-270 *)
  | Lxnor => Z.lnot (Z.lxor x y)           (* 271-277 *)
  end.
(** riscv_vector_opm_instructions.cc:213-216, 221-222: one byte updated under a mask. *)
Definition masked_byte (old new mask : Z) : Z := Z.lor (Z.land new mask) (Z.land old (wnot 8 mask)).
(** riscv_vector_opm_instructions.cc:189-225 BitwiseMaskBinaryOp.  None: start_byte outside the
    register.  vl - 1 may be -1: `/` and `%` truncate. *)
Definition exec_logic (st : vstate) (o : vlogic) (vd vs2 vs1 : Z) : option vstate :=
  let c := cfg st in
  if vexc c then Some st else
  let vb := vlenb c in
  let op k := logic_op o (copy_reg vb (regs st) vs2 k) (copy_reg vb (regs st) vs1 k) in
  let d0 := copy_reg vb (regs st) vd in
  let start_byte := Z.quot (vstart c) 8 in
  let start_mask := wrap 8 (Z.shiftl 255 (Z.rem (vstart c) 8)) in
  let end_byte := Z.quot (vl c - 1) 8 in
  let end_mask := wrap 8 (Z.shiftr 255 (7 - Z.rem (vl c - 1) 8)) in
  if negb ((0 <=? start_byte) && (start_byte <? vb)) then None else
  let d1 k := if k =? start_byte then masked_byte (d0 k) (op k) start_mask else d0 k in
  let d2 k := if (start_byte <? k) && (k <? end_byte) then op k else d1 k in
  let d3 k := if k =? end_byte then masked_byte (d2 k) (op k) end_mask else d2 k in
  Some {| regs := submit vb (regs st) d3 vd; cfg := set_vstart c 0 |}.

(** The source bit: riscv_vector_unary_instructions.cc:117-122, 155-160, 313-316: (span[i >> 3] >> (i & 7)) & 1. *)
Definition src_bit (vb : Z) (rf : mem) (r i : Z) : bool :=
  negb (Z.land (Z.shiftr (copy_reg vb rf r (Z.shiftr i 3)) (Z.land i 7)) 1 =? 0).
(** riscv_vector_unary_instructions.cc:116-122, the counting loop of Vcpop (uint64_t count). *)
Fixpoint cpop_loop (hit : Z -> bool) (fuel : nat) (i n count : Z) : Z :=
  match fuel with
  | O => count
  | S f => if i <? n then cpop_loop hit f (i + 1) n (count + Z.b2z (hit i)) else count
  end.
(** riscv_vector_unary_instructions.cc:101-136 Vcpop: the state, and the value written to rd if any. *)
Definition exec_cpop (st : vstate) (xlen vs2 : Z) (vm : bool) : vstate * option Z :=
  let c := cfg st in
  if negb (vstart c =? 0) then (raise st, None) else
  let hit i := mask_value (regs st) vm i && src_bit (vlenb c) (regs st) vs2 i in
  (st, Some (wrap xlen (cpop_loop hit (Z.to_nat (vl c)) 0 (vl c) 0))).
(** riscv_vector_unary_instructions.cc:154-163, the search loop of Vfirst. *)
Fixpoint first_loop (hit : Z -> bool) (fuel : nat) (i n : Z) : Z :=
  match fuel with
  | O => -1
  | S f => if i <? n then (if hit i then i else first_loop hit f (i + 1) n) else -1
  end.
(** riscv_vector_unary_instructions.cc:139-176 Vfirst. *)
Definition exec_first (st : vstate) (xlen vs2 : Z) (vm : bool) : vstate * option Z :=
  let c := cfg st in
  if negb (vstart c =? 0) then (raise st, None) else
  let hit i := mask_value (regs st) vm i && src_bit (vlenb c) (regs st) vs2 i in
  (st, Some (wrap xlen (wrap 64 (first_loop hit (Z.to_nat (vl c)) 0 (vl c))))).

(** riscv_vector_unary_instructions.cc:311-324, first loop of Vmsbf; result: buffer, before_first, last. *)
Fixpoint sbf_set (m s : Z -> bool) (fuel : nat) (buf : mem) (i n last : Z) (before : bool) : mem * bool * Z :=
  match fuel with
  | O => (buf, before, last)
  | S f =>
    if i <? n then
      if m i then
        let before' := before && negb (s i) in
        if negb before' then (buf, before', i)
        else sbf_set m s f (or_bit buf i true) (i + 1) n i before'
      else sbf_set m s f buf (i + 1) n i before
    else (buf, before, last)
  end.
(** riscv_vector_unary_instructions.cc:326-331, second loop of Vmsbf. *)
Fixpoint sbf_clear (fuel : nat) (buf : mem) (i n : Z) (before : bool) : mem :=
  match fuel with
  | O => buf
  | S f => if negb before && (i <? n) then sbf_clear f (clear_bit buf i) (i + 1) n before else buf
  end.
(** riscv_vector_unary_instructions.cc:352-369, loop of Vmsif. *)
Fixpoint sif_loop (m s : Z -> bool) (fuel : nat) (buf : mem) (i n : Z) (value : bool) : mem :=
  match fuel with
  | O => buf
  | S f =>
    if i <? n then
      if m i then
        sif_loop m s f (if value then or_bit buf i true else clear_bit buf i) (i + 1) n (if s i then false else value)
      else sif_loop m s f buf (i + 1) n value
    else buf
  end.
(** riscv_vector_unary_instructions.cc:389-405, loop of Vmsof. *)
Fixpoint sof_loop (m s : Z -> bool) (fuel : nat) (buf : mem) (i n : Z) (first : bool) : mem :=
  match fuel with
  | O => buf
  | S f =>
    if i <? n then
      if m i then
        if first && s i then sof_loop m s f (or_bit buf i true) (i + 1) n false
        else sof_loop m s f (clear_bit buf i) (i + 1) n first
      else sof_loop m s f buf (i + 1) n first
    else buf
  end.
(** riscv_vector_unary_instructions.cc:294-334 Vmsbf, 337-371 Vmsif, 374-408 Vmsof. *)
Definition exec_scan (st : vstate) (o : vscan) (vd vs2 : Z) (vm : bool) : vstate :=
  let c := cfg st in
  if negb (vstart c =? 0) then raise st else
  let vb := vlenb c in
  let m := mask_value (regs st) vm in
  let s := src_bit vb (regs st) vs2 in
  let d0 := copy_reg vb (regs st) vd in
  let fuel := Z.to_nat (vl c) in
  let buf :=
    match o with
    | Msbf => let '(b, before, last) := sbf_set m s fuel d0 0 (vl c) 0 true in sbf_clear fuel b last (vl c) before
    | Msif => sif_loop m s fuel d0 0 (vl c) true
    | Msof => sof_loop m s fuel d0 0 (vl c) true
    end in
  {| regs := submit vb (regs st) buf vd; cfg := set_vstart c 0 |}.

(** riscv_vector_instruction_helpers.h:200-218, inner loop of RiscVMaskNullaryVectorOp: [op count m] is the
    captured counter after the call and the result; [opm rf i]: the operation mask, vs2 being read
    again in every iteration (lines 207-213).  Model only: [fuel]. *)
Fixpoint nitems (op : Z -> bool -> Z * Z) (m : Z -> bool) (opm : mem -> Z -> bool) (wd : Z) (fuel : nat)
  (rf buf : mem) (i count vi n k : Z) : mem * Z * Z :=
  match fuel with
  | O => (buf, vi, k)
  | S f =>
    if (i <? count) && (vi <? n) then
      let '(k', r) := op k (m vi && opm rf vi) in
      nitems op m opm wd f rf (if m vi then store_le buf (i * wd) (Z.to_nat wd) (wrap (8 * wd) r) else buf)
        (i + 1) count (vi + 1) n k'
    else (buf, vi, k)
  end.
(** riscv_vector_instruction_helpers.h:191-222, outer loop. *)
Fixpoint nregs_loop (op : Z -> bool -> Z * Z) (m : Z -> bool) (opm : mem -> Z -> bool) (vb wd vd epv max_regs n : Z)
  (fuel : nat) (rf : mem) (reg item vi k : Z) : mem :=
  match fuel with
  | O => rf
  | S f =>
    if (reg <? max_regs) && (vi <? n) then
      let '(buf, vi', k') := nitems op m opm wd (Z.to_nat epv) rf (copy_reg vb rf (vd + reg)) item (Z.min epv n) vi n k in
      nregs_loop op m opm vb wd vd epv max_regs n f (submit vb rf buf (vd + reg)) (reg + 1) 0 vi' k'
    else rf
  end.
(** riscv_vector_instruction_helpers.h:158-226 RiscVMaskNullaryVectorOp. *)
Definition mask_nullary (st : vstate) (op : Z -> bool -> Z * Z) (vd : Z) (vs2 : option Z) (vm : bool) : vstate :=
  let c := cfg st in
  if vexc c then st else
  let wd := sew c in
  let vb := vlenb c in
  let n := vl c in
  let epv := vb / wd in
  let max_regs := (n + epv - 1) / epv in
  if num_regs vd <? max_regs then raise st else
  let opm rf i := match vs2 with Some r => src_bit vb rf r i | None => true end in
  {| regs := nregs_loop op (mask_value (regs st) vm) opm vb wd vd epv max_regs n (Z.to_nat max_regs)
               (regs st) (vstart c / epv) (vstart c mod epv) (vstart c) 0;
     cfg := set_vstart c 0 |}.
(** riscv_vector_unary_instructions.cc:411-446 Viota: `mask ? count++ : count`. *)
Definition exec_iota (st : vstate) (vd vs2 : Z) (vm : bool) : vstate :=
  if existsb (Z.eqb (sew (cfg st))) [1; 2; 4; 8]
  then mask_nullary st (fun k b => (if b then k + 1 else k, k)) vd (Some vs2) vm else raise st.
(** riscv_vector_unary_instructions.cc:449-483 Vid: `index++`. *)
Definition exec_id (st : vstate) (vd : Z) (vm : bool) : vstate :=
  if existsb (Z.eqb (sew (cfg st))) [1; 2; 4; 8]
  then mask_nullary st (fun k _ => (k + 1, k)) vd None vm else raise st.

(** riscv_vector_reduction_instructions.cc, the functions [op(acc, vs2)] on unsigned encodings of
    [b] = SEW bits (accumulator of 2 * b bits for the widening sums).  The signed additions cannot
    overflow: the accumulator starts as a SEW-bit value and, at SEW = 16, at most 2^15 elements are added
    (at SEW = 8 the addition is done in int). *)
Definition red_op (o : vred) (b acc x : Z) : Z :=
  match o with
  | Rsum => wrap b (acc + x)                                    (* 29-57 *)
  | Rand => Z.land acc x                                        (* 60-88 *)
  | Ror => Z.lor acc x                                          (* 91-119 *)
  | Rxor => Z.lxor acc x                                        (* 122-150 *)
  | Rminu => if x <? acc then x else acc                        (* 153-185 *)
  | Rmin => if sgn b x <? sgn b acc then x else acc             (* 188-219 *)
  | Rmaxu => if acc <? x then x else acc                        (* 222-254 *)
  | Rmax => if sgn b acc <? sgn b x then x else acc             (* 257-287 *)
  | Rwsumu => wrap (2 * b) (acc + x)                            (* 291-318 *)
  | Rwsum => wrap (2 * b) (acc + sgn b x)                       (* 321-348 *)
  end.
(** The same lines: the template arguments (sizeof Vd, Vs2, Vs1) per SEW. *)
Definition red_sizes (o : vred) (sew : Z) : option (Z * Z * Z) :=
  match o with
  | Rwsumu | Rwsum => if existsb (Z.eqb sew) [1; 2; 4] then Some (2 * sew, sew, sew) else None
  | _ => if existsb (Z.eqb sew) [1; 2; 4; 8] then Some (sew, sew, sew) else None
  end.
(** riscv_vector_instruction_helpers.h:673-681, the accumulation loop. *)
Fixpoint red_loop (m : Z -> bool) (read : Z -> option Z) (op : Z -> Z -> Z) (fuel : nat) (i n acc : Z) : option Z :=
  match fuel with
  | O => Some acc
  | S f =>
    if i <? n then
      if m i then obind (read i) (fun x => red_loop m read op f (i + 1) n (op acc x))
      else red_loop m read op f (i + 1) n acc
    else Some acc
  end.
(** riscv_vector_instruction_helpers.h:645-688 RiscVBinaryReductionVectorOp. *)
Definition exec_red (st : vstate) (o : vred) (vd vs2 vs1 : Z) (vm : bool) : option vstate :=
  let c := cfg st in
  match red_sizes o (sew c) with
  | None => Some (raise st)
  | Some (wd, w2, w1) =>
    if vexc c then Some st else
    if negb (vstart c =? 0) then Some st else
    let lmul_of w := Z.quot (lmul8 c * w) (sew c) in
    if existsb (fun w => 64 <? lmul_of w) [wd; w2; w1] || existsb (fun w => lmul_of w =? 0) [wd; w2; w1]
    then Some (raise st) else
    let vb := vlenb c in
    let rf := regs st in
    obind (read_elem vb rf vs1 w1 0) (fun s =>
    let acc0 := match o with Rwsum => wrap (8 * wd) (sgn (8 * w1) s) | _ => s end in
    obind (red_loop (mask_value rf vm) (read_elem vb rf vs2 w2) (red_op o (8 * sew c)) (Z.to_nat (vl c)) 0 (vl c) acc0)
      (fun acc =>
        Some {| regs := submit vb rf (store_le (copy_reg vb rf vd) 0 (Z.to_nat wd) acc) vd;
                cfg := set_vstart c 0 |}))
  end.

(** riscv_vector_unary_instructions.cc:39-70 VmvToScalar (vmv.x.s): the state and the value of rd if written.
    SignedXregType (34-36) is int32_t for both register widths, so Set writes four bytes of the
    freshly allocated buffer; [junk]: the other four bytes of a 64-bit register's buffer. *)
Definition exec_vmv_xs (st : vstate) (xlen junk vs2 : Z) : option (vstate * option Z) :=
  let c := cfg st in
  if negb (vstart c =? 0) then Some (st, None) else
  if vl c =? 0 then Some (st, None) else
  if existsb (Z.eqb (sew c)) [1; 2; 4; 8] then
    obind (read_elem (vlenb c) (regs st) vs2 (sew c) 0) (fun x =>
      let value := wrap 32 (sgn (8 * sew c) x) in
      Some (st, Some (if xlen =? 64 then value + 2 ^ 32 * wrap 32 junk else value)))
  else Some (raise st, None).
(** riscv_vector_unary_instructions.cc:72-99 VmvFromScalar (vmv.s.x); [x]: the scalar operand, already
    extended by the operand interface. *)
Definition exec_vmv_sx (st : vstate) (vd x : Z) : vstate :=
  let c := cfg st in
  if negb (vstart c =? 0) then st else
  if vl c =? 0 then st else
  if existsb (Z.eqb (sew c)) [1; 2; 4; 8] then
    {| regs := submit (vlenb c) (regs st)
                 (store_le (copy_reg (vlenb c) (regs st) vd) 0 (Z.to_nat (sew c)) (wrap (8 * sew c) x)) vd;
       cfg := c |}
  else raise st.

(** riscv_vector_opi_instructions.cc:1155-1161, the copy loop of Vmvr. *)
Fixpoint vmvr_loop (vb vd vs2 : Z) (fuel : nat) (rf : mem) (i n : Z) : mem :=
  match fuel with
  | O => rf
  | S f => if i <? n then vmvr_loop vb vd vs2 f (submit vb rf (copy_reg vb rf (vs2 + i)) (vd + i)) (i + 1) n else rf
  end.
(** riscv_vector_opi_instructions.cc:1133-1163 Vmvr. *)
Definition exec_vmvr (st : vstate) (n vd vs2 : Z) : vstate :=
  let c := cfg st in
  if vexc c then st else
  if num_regs vs2 <? n then raise st else
  if num_regs vd <? n then raise st else
  let epv := vlenb c / sew c in
  {| regs := vmvr_loop (vlenb c) vd vs2 (Z.to_nat n) (regs st) (vstart c / epv) n; cfg := set_vstart c 0 |}.
