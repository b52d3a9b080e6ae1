(** Model of the vector loads and stores (/repo/riscv/riscv_vector_memory_instructions.cc) and of the
    vector form of RiscVState::LoadMemory/StoreMemory. *)
From Coq Require Import ZArith Bool List.
From Verif Require Import Bits Memory VmemSpec VcfgModel VelemModel.
Import ListNotations.
Local Open Scope Z_scope.

(** Model only: the outcome of an instruction: vector state, memory, and the trap raised (cause, tval). *)
Record outcome := { o_vs : vstate; o_mem : mem; o_trap : option (Z * Z) }.

(** Model only: a buffer of [n] entries, of which those with no value were never written (data buffers
    are recycled, so such an entry holds stale data); reading one is undefined. *)
Definition filled {A} (n : Z) (g : Z -> option A) : bool :=
  forallb (fun k => match g k with Some _ => true | None => false end) (zrange n).
(** Model only: entry of a filled buffer. *)
Definition getz (g : Z -> option Z) (k : Z) : Z := match g k with Some a => a | None => 0 end.
(** Model only: entry of a filled mask buffer. *)
Definition getb (g : Z -> option bool) (k : Z) : bool := match g k with Some a => a | None => false end.

(** riscv_state.cc:544-550, 566-572: the first address above max_physical_address_, if any. *)
Definition fault (maxpa n : Z) (a : Z -> option Z) : option Z :=
  match find (fun k => maxpa <? getz a k) (zrange n) with Some k => Some (getz a k) | None => None end.

(** riscv_state.cc:541-552 LoadMemory with the memory interface's gather load (mpact-sim, not in
    /repo): entry k of the value buffer is the [w]-byte value at address k if mask k is set, and is not
    written otherwise.  [na], [nm]: sizes of the address and mask buffers; the memory indexes both with
    the same index, so different sizes are undefined.  Result: the faulting address, or the values. *)
Definition load_memory (m : mem) (maxpa w na nm : Z) (a : Z -> option Z) (mk : Z -> option bool)
  : option (Z + (Z -> option Z)) :=
  if negb (filled na a) then None else
  match fault maxpa na a with
  | Some x => Some (inl x)
  | None =>
    if negb (na =? nm) || negb (filled nm mk) then None else
    Some (inr (fun k => if getb mk k then Some (load_le m (getz a k) (Z.to_nat w)) else None))
  end.
(** Model only: the scatter loop of the memory interface (mpact-sim), in index order. *)
Fixpoint scatter (w : Z) (fuel : nat) (k : Z) (a : Z -> option Z) (mk : Z -> option bool) (d : Z -> option Z) (m : mem)
  : option mem :=
  match fuel with
  | O => Some m
  | S f =>
    if getb mk k then
      match d k with
      | Some v => scatter w f (k + 1) a mk d (store_le m (getz a k) (Z.to_nat w) v)
      | None => None end
    else scatter w f (k + 1) a mk d m
  end.
(** riscv_state.cc:564-574 StoreMemory with the memory interface's scatter store. *)
Definition store_memory (m : mem) (maxpa w n : Z) (a : Z -> option Z) (mk : Z -> option bool) (d : Z -> option Z)
  : option (Z + mem) :=
  if negb (filled n a) then None else
  match fault maxpa n a with
  | Some x => Some (inl x)
  | None => if negb (filled n mk) then None else
      match scatter w (Z.to_nat n) 0 a mk d m with Some m' => Some (inr m') | None => None end
  end.

(** riscv_vector_memory_instructions.cc:78-82, the inner loop of WriteBackLoadData, [fuel] = count - i
    iterations from item [i]; None: index past the mask span, or a value that was not loaded.
    CopyDataBuffer and Submit(0) (lines 73, 85) are an update of register [r] in place. *)
Fixpoint wb_items (vb w r : Z) (nm : Z) (mk : Z -> option bool) (v : Z -> option Z) (fuel : nat) (i ldi : Z) (rf : mem)
  : option mem :=
  match fuel with
  | O => Some rf
  | S f =>
    if nm <=? ldi + i then None else
    if getb mk (ldi + i) then
      obind (v (ldi + i)) (fun x =>
        wb_items vb w r nm mk v f (i + 1) ldi (store_le rf (r * vb + i * w) (Z.to_nat w) x))
    else wb_items vb w r nm mk v f (i + 1) ldi rf
  end.
(** riscv_vector_memory_instructions.cc:71-87, the loop over the registers. *)
Fixpoint wb_regs (vb w vd epv max_regs nm : Z) (mk : Z -> option bool) (v : Z -> option Z) (fuel : nat)
  (reg item vc ldi : Z) (rf : mem) : option mem :=
  match fuel with
  | O => Some rf
  | S f =>
    if (reg <? max_regs) && (0 <? vc) then
      let count := Z.min (epv - item) vc in
      obind (wb_items vb w (vd + reg) nm mk v (Z.to_nat (count - item)) item ldi rf) (fun rf' =>
        wb_regs vb w vd epv max_regs nm mk v f (reg + 1) 0 (vc - count) (ldi + count) rf')
    else Some rf
  end.
(** riscv_vector_memory_instructions.cc:36-88 WriteBackLoadData and 676-701 VlChild ([w] one of 1, 2, 4,
    8): the new register file, or None inside for the error status (the exception flag). *)
Definition write_back (vb w vd vstart vlength nm : Z) (mk : Z -> option bool) (v : Z -> option Z) (rf : mem)
  : option (option mem) :=
  let epv := vb / w in
  let max_regs := Z.quot (vlength + epv - 1) epv in
  if num_regs vd <? max_regs then Some None else
  if negb (vlength - vstart =? nm) then Some None else
  obind (wb_regs vb w vd epv max_regs nm mk v (Z.to_nat max_regs) (Z.quot vstart epv) (Z.rem vstart epv) nm 0 rf)
    (fun rf' => Some (Some rf')).

(** riscv_vector_memory_instructions.cc:136-142, the inner loop of WriteBackSegmentLoadData. *)
Fixpoint ws_items (vb w r nm : Z) (mk : Z -> option bool) (v : Z -> option Z) (fuel : nat) (i ldi : Z) (rf : mem)
  : option (mem * Z) :=
  match fuel with
  | O => Some (rf, ldi)
  | S f =>
    if nm <=? ldi then None else
    if getb mk ldi then
      obind (v ldi) (fun x => ws_items vb w r nm mk v f (i + 1) (ldi + 1) (store_le rf (r * vb + i * w) (Z.to_nat w) x))
    else ws_items vb w r nm mk v f (i + 1) (ldi + 1) rf
  end.
(** riscv_vector_memory_instructions.cc:131-145, the loop over the registers of a field; None: a
    register past the end of the operand. *)
Fixpoint ws_regs (vb w vd mepv nm : Z) (mk : Z -> option bool) (v : Z -> option Z) (fuel : nat)
  (reg offset remaining ldi : Z) (rf : mem) : option (mem * Z) :=
  match fuel with
  | O => Some (rf, ldi)
  | S f =>
    if num_regs vd <=? reg then None else
    let max_entry := Z.min (remaining + offset) mepv in
    obind (ws_items vb w (vd + reg) nm mk v (Z.to_nat (max_entry - offset)) offset ldi rf) (fun t =>
      let '(rf', ldi') := t in
      ws_regs vb w vd mepv nm mk v f (reg + 1) 0 (remaining - (ldi' - ldi)) ldi' rf')
  end.
(** riscv_vector_memory_instructions.cc:126-146, the loop over the fields. *)
Fixpoint ws_fields (vb w vd mepv nregs nseg start nm : Z) (mk : Z -> option bool) (v : Z -> option Z) (fuel : nat)
  (field ldi : Z) (rf : mem) : option mem :=
  match fuel with
  | O => Some rf
  | S f =>
    obind (ws_regs vb w vd mepv nm mk v (Z.to_nat nregs) (field * nregs + start / mepv) (start mod mepv) nseg ldi rf)
      (fun t => let '(rf', ldi') := t in ws_fields vb w vd mepv nregs nseg start nm mk v f (field + 1) ldi' rf')
  end.
(** riscv_vector_memory_instructions.cc:93-150 WriteBackSegmentLoadData and 706-731 VlSegmentChild; None
    outside: division by zero (lines 129-130). *)
Definition write_back_segment (vb w vd nf vstart vlength nm : Z) (mk : Z -> option bool) (v : Z -> option Z) (rf : mem)
  : option (option mem) :=
  let nseg := Z.quot nm nf in
  let mepv := Z.min (Z.quot vb w) nseg in
  let nregs := Z.max 1 (Z.quot (nseg * w) vb) in
  if num_regs vd <? nf * nregs then Some None else
  if negb (vlength - vstart =? nseg) then Some None else
  if mepv =? 0 then None else
  obind (ws_fields vb w vd mepv nregs nseg vstart nm mk v (Z.to_nat nf) 0 0 rf) (fun rf' => Some (Some rf')).

(** Model only: the state after an instruction that ends with clear_vstart(). *)
Definition finish (st : vstate) (rf : option mem) : vstate :=
  match rf with
  | Some rf => {| regs := rf; cfg := set_vstart (cfg st) 0 |}
  | None => {| regs := regs st; cfg := set_vstart (set_vexc (cfg st)) 0 |} end.
(** Model only: LoadMemory, the child instruction (called by the memory interface) and clear_vstart();
    cause 5 is kLoadAccessFault. *)
Definition do_load (st : vstate) (m : mem) (maxpa w na nm : Z) (a : Z -> option Z) (mk : Z -> option bool)
  (child : (Z -> option Z) -> option (option mem)) : option outcome :=
  if (na <? 0) || (nm <? 0) then None else
  match load_memory m maxpa w na nm a mk with
  | None => None
  | Some (inl x) => Some {| o_vs := finish st (Some (regs st)); o_mem := m; o_trap := Some (5, x) |}
  | Some (inr v) => obind (child v) (fun rf => Some {| o_vs := finish st rf; o_mem := m; o_trap := None |})
  end.
(** Model only: StoreMemory and clear_vstart(); cause 7 is kStoreAccessFault. *)
Definition do_store (st : vstate) (m : mem) (maxpa w n : Z) (a : Z -> option Z) (mk : Z -> option bool) (d : Z -> option Z)
  : option outcome :=
  if n <? 0 then None else
  match store_memory m maxpa w n a mk d with
  | None => None
  | Some (inl x) => Some {| o_vs := finish st (Some (regs st)); o_mem := m; o_trap := Some (7, x) |}
  | Some (inr m') => Some {| o_vs := finish st (Some (regs st)); o_mem := m'; o_trap := None |} end.
(** Model only: no trap, memory unchanged. *)
Definition quiet (st : vstate) (m : mem) : option outcome := Some {| o_vs := st; o_mem := m; o_trap := None |}.
(** Model only: an array whose entries [lo <= k < hi] were written. *)
Definition written {A} (lo hi : Z) (f : Z -> option A) (k : Z) : option A :=
  if (lo <=? k) && (k <? hi) then f k else None.

(** base + i * stride (lines 255, 572, 759): int times int64_t, None on signed overflow; then uint64_t. *)
Definition strided_addr (base stride i : Z) : option Z :=
  if (- 2 ^ 63 <=? i * stride) && (i * stride <? 2 ^ 63) then Some (wrap 64 (base + i * stride)) else None.

(** riscv_vector_memory_instructions.cc:216-272 VlStrided. *)
Definition vl_strided (st : vstate) (m : mem) (maxpa element_width base stride vd : Z) (vm : bool) : option outcome :=
  let c := cfg st in
  let start := vstart c in
  let emul := Z.quot (element_width * lmul8 c) (sew c) in
  if (64 <? emul) || (emul =? 0) then quiet st m else
  let n := vl c - start in
  let a := written 0 n (fun k => strided_addr base stride (k + start)) in
  let mk := written 0 n (fun k => Some (mask_value (regs st) vm (k + start))) in
  do_load st m maxpa element_width n n a mk
    (fun v => write_back (vlenb c) element_width vd start (vl c) n mk v (regs st)).

(** riscv_vector_memory_instructions.cc:278-321 Vlm. *)
Definition vlm (st : vstate) (m : mem) (maxpa base vd : Z) : option outcome :=
  let c := cfg st in
  let start := vstart c in
  let num_bytes := Z.quot (vl c + 7) 8 in
  let n := num_bytes - start in
  if vlenb c <=? start then quiet (finish st (Some (regs st))) m else
  if n <=? 0 then quiet (finish st (Some (regs st))) m else
  let a := written 0 n (fun k => Some (wrap 64 (base + (k + start)))) in
  let mk := written 0 n (fun _ => Some true) in
  do_load st m maxpa 1 n n a mk (fun v => write_back (vlenb c) 1 vd start num_bytes n mk v (regs st)).

(** riscv_vector_memory_instructions.cc:335-412 VlIndexed. *)
Definition vl_indexed (st : vstate) (m : mem) (maxpa index_width base vs2 vd : Z) (vm : bool) : option outcome :=
  let c := cfg st in
  let start := vstart c in
  let element_width := sew c in
  let index_emul := Z.quot (index_width * lmul8 c) element_width in
  if (64 <? index_emul) || (index_emul =? 0) then quiet (raise st) m else
  let n := vl c - start in
  let a := written 0 n (fun k => obind (read_elem (vlenb c) (regs st) vs2 index_width (k + start)) (fun o =>
             Some (wrap 64 (base + o)))) in
  let mk := written 0 n (fun k => Some (mask_value (regs st) vm (k + start))) in
  do_load st m maxpa element_width n (vl c) a mk
    (fun v => write_back (vlenb c) element_width vd start (vl c) (vl c) mk v (regs st)).

(** riscv_vector_memory_instructions.cc:421-458 VlRegister. *)
Definition vl_register (st : vstate) (m : mem) (maxpa num_regs element_width base vd : Z) : option outcome :=
  let c := cfg st in
  let n := Z.quot (vlenb c * num_regs) element_width in
  let a := written 0 n (fun k => Some (wrap 64 (base + k * element_width))) in
  let mk := written 0 n (fun _ => Some true) in
  do_load st m maxpa element_width n n a mk
    (fun v => write_back (vlenb c) element_width vd 0 n n mk v (regs st)).

(** Model only: the part common to VlSegment, VlSegmentStrided and VlSegmentIndexed: buffers of num_fields *
    num_segments entries, entry field * num_segments + i for field [field] of segment [i], i >= vstart. *)
Definition vl_segment_gen (st : vstate) (m : mem) (maxpa w nf vd : Z) (vm : bool) (seg : Z -> option Z) : option outcome :=
  let c := cfg st in
  let start := vstart c in
  let ns := vl c in
  let n := nf * ns in
  let at_ {A} (f : Z -> Z -> option A) k := if start <=? k mod ns then f (k / ns) (k mod ns) else None in
  let a := written 0 n (at_ (fun f i => obind (seg i) (fun s => Some (wrap 64 (s + f * w))))) in
  let mk := written 0 n (at_ (fun f i => Some (mask_value (regs st) vm i))) in
  do_load st m maxpa w n n a mk
    (fun v => write_back_segment (vlenb c) w vd nf start ns n mk v (regs st)).
(** riscv_vector_memory_instructions.cc:471-519 VlSegment. *)
Definition vl_segment (st : vstate) (m : mem) (maxpa element_width base nf vd : Z) (vm : bool) : option outcome :=
  let c := cfg st in
  let emul := Z.quot (element_width * lmul8 c) (sew c) in
  if 64 <? emul * nf then quiet (raise st) m else
  vl_segment_gen st m maxpa element_width nf vd vm (fun i => Some (base + i * (nf * element_width))).
(** riscv_vector_memory_instructions.cc:529-578 VlSegmentStrided. *)
Definition vl_segment_strided (st : vstate) (m : mem) (maxpa element_width base stride nf vd : Z) (vm : bool) : option outcome :=
  let c := cfg st in
  let emul := Z.quot (element_width * lmul8 c) (sew c) in
  if 64 <? emul * nf then quiet (raise st) m else
  vl_segment_gen st m maxpa element_width nf vd vm (strided_addr base stride).
(** riscv_vector_memory_instructions.cc:588-671 VlSegmentIndexed. *)
Definition vl_segment_indexed (st : vstate) (m : mem) (maxpa index_width base vs2 nf vd : Z) (vm : bool) : option outcome :=
  let c := cfg st in
  if 64 <? lmul8 c * nf then quiet (raise st) m else
  let index_emul := Z.quot (index_width * lmul8 c) (sew c) in
  if (64 <? index_emul) || (index_emul =? 0) then quiet (raise st) m else
  vl_segment_gen st m maxpa (sew c) nf vd vm (fun i =>
    obind (read_elem (vlenb c) (regs st) vs2 index_width i) (fun o => Some (base + o))).

(** riscv_vector_memory_instructions.cc:735-769 StoreVectorStrided, 776-806 VsStrided.  Element [i] is
    written at index i - vstart of buffers of vl entries. *)
Definition vs_strided (st : vstate) (m : mem) (maxpa element_width base stride vs3 : Z) (vm : bool) : option outcome :=
  let c := cfg st in
  let start := vstart c in
  let emul := Z.quot (element_width * lmul8 c) (sew c) in
  if (64 <? emul) || (emul =? 0) then quiet (raise st) m else
  let n := vl c in
  let a := written 0 (n - start) (fun k => strided_addr base stride (k + start)) in
  let mk := written 0 (n - start) (fun k => Some (mask_value (regs st) vm (k + start))) in
  let d := written 0 (n - start) (fun k => read_elem (vlenb c) (regs st) vs3 element_width (k + start)) in
  if negb (filled (n - start) d) then None else do_store st m maxpa element_width n a mk d.

(** riscv_vector_memory_instructions.cc:811-850 Vsm. *)
Definition vsm (st : vstate) (m : mem) (maxpa base vs3 : Z) : option outcome :=
  let c := cfg st in
  let start := vstart c in
  let num_bytes := Z.quot (vl c + 7) 8 in
  let n := num_bytes - start in
  if vlenb c <=? start then quiet (finish st (Some (regs st))) m else
  if n <=? 0 then quiet (finish st (Some (regs st))) m else
  let a := written 0 n (fun k => Some (wrap 64 (base + (k + start)))) in
  let mk := written 0 n (fun _ => Some true) in
  let d := written 0 n (fun k => read_elem (vlenb c) (regs st) vs3 1 (k + start)) in
  if negb (filled n d) then None else do_store st m maxpa 1 n a mk d.

(** riscv_vector_memory_instructions.cc:863-949 VsIndexed: the loop bound is vl - vstart, addresses and
    masks are written at i - vstart, the data at i. *)
Definition vs_indexed (st : vstate) (m : mem) (maxpa index_width base vs2 vs3 : Z) (vm : bool) : option outcome :=
  let c := cfg st in
  let start := vstart c in
  let n := vl c - start in
  let element_width := sew c in
  let index_emul := Z.quot (index_width * lmul8 c) element_width in
  if (64 <? index_emul) || (index_emul =? 0) then quiet (raise st) m else
  let a := written 0 (n - start) (fun k => obind (read_elem (vlenb c) (regs st) vs2 index_width (k + start)) (fun o =>
             Some (wrap 64 (base + o)))) in
  let mk := written 0 (n - start) (fun k => Some (mask_value (regs st) vm (k + start))) in
  let d := written start n (fun k => read_elem (vlenb c) (regs st) vs3 element_width k) in
  if negb (filled (n - start) (fun k => d (k + start))) then None else do_store st m maxpa element_width n a mk d.

(** riscv_vector_memory_instructions.cc:951-976 VsRegister. *)
Definition vs_register (st : vstate) (m : mem) (maxpa num_regs base vs3 : Z) : option outcome :=
  let c := cfg st in
  let n := Z.quot (vlenb c * num_regs) 8 in
  let a := written 0 n (fun k => Some (wrap 64 (base + k * 8))) in
  let mk := written 0 n (fun _ => Some true) in
  let d := written 0 n (fun k => read_elem (vlenb c) (regs st) vs3 8 k) in
  if negb (filled n d) then None else do_store st m maxpa 8 n a mk d.

(** GetRegister(reg_no)->data_buffer()->Get<T>(i) (e.g. lines 1045-1060); None: past the operand's
    registers. *)
Definition reg_elem (vb : Z) (rf : mem) (r reg_no w i : Z) : option Z :=
  if reg_no <? num_regs r then Some (load_le rf ((r + reg_no) * vb + i * w) (Z.to_nat w)) else None.
(** Model only: the part common to VsSegment, VsSegmentStrided and VsSegmentIndexed: buffers of num_fields *
    num_segments entries filled from the front ([count]), one per segment >= vstart and field; data only
    for segments whose mask is set.  [seg s p]: address of segment [s], the [p]-th processed.
    Simplification: the loop-carried addresses (lines 1021, 1042, 1119, 1140, 1158) in closed form. *)
Definition vs_segment_gen (st : vstate) (m : mem) (maxpa w reg_mul nf vs3 : Z) (vm : bool) (seg : Z -> Z -> option Z)
  : option outcome :=
  let c := cfg st in
  let start := vstart c in
  let ns := vl c in
  let n := nf * ns in
  let epr := Z.quot (vlenb c) w in
  let hi := nf * (ns - start) in
  let a := written 0 hi (fun k => obind (seg (start + k / nf) (k / nf)) (fun s => Some (wrap 64 (s + (k mod nf) * w)))) in
  let mk := written 0 hi (fun k => Some (mask_value (regs st) vm (start + k / nf))) in
  let d := written 0 hi (fun k =>
             let s := start + k / nf in
             if mask_value (regs st) vm s
             then reg_elem (vlenb c) (regs st) vs3 ((k mod nf) * reg_mul + s / epr) w (s mod epr) else None) in
  do_store st m maxpa w n a mk d.
(** riscv_vector_memory_instructions.cc:980-1067 VsSegment. *)
Definition vs_segment (st : vstate) (m : mem) (maxpa element_width base nf vs3 : Z) (vm : bool) : option outcome :=
  let c := cfg st in
  let emul := Z.quot (element_width * lmul8 c) (sew c) in
  if 64 <? emul * nf then quiet (raise st) m else
  vs_segment_gen st m maxpa element_width (Z.max 1 (Z.quot emul 8)) nf vs3 vm
    (fun _ p => Some (base + p * (nf * element_width))).
(** riscv_vector_memory_instructions.cc:1071-1161 VsSegmentStrided. *)
Definition vs_segment_strided (st : vstate) (m : mem) (maxpa element_width base stride nf vs3 : Z) (vm : bool) : option outcome :=
  let c := cfg st in
  let emul := Z.quot (element_width * lmul8 c) (sew c) in
  if 64 <? emul * nf then quiet (raise st) m else
  vs_segment_gen st m maxpa element_width (Z.max 1 (Z.quot emul 8)) nf vs3 vm
    (fun _ p => Some (base + p * stride)).
(** riscv_vector_memory_instructions.cc:1166-1281 VsSegmentIndexed: the index is read as a signed value
    (lines 1226-1241). *)
Definition vs_segment_indexed (st : vstate) (m : mem) (maxpa index_width base vs2 nf vs3 : Z) (vm : bool) : option outcome :=
  let c := cfg st in
  let emul := Z.quot (index_width * lmul8 c) (sew c) in
  if 64 <? lmul8 c * nf then quiet (raise st) m else
  if (emul =? 0) || (64 <? emul) then quiet (raise st) m else
  vs_segment_gen st m maxpa (sew c) (Z.max 1 (Z.quot (lmul8 c) 8)) nf vs3 vm
    (fun s _ => obind (read_elem (vlenb c) (regs st) vs2 index_width s) (fun o => Some (base + sgn (8 * index_width) o))).

(** riscv_vector.isa:65-275 (again from 1447): the semantic function of each load; unit-stride loads are strided
    loads whose stride operand is the constant element width.  One field: the non-segment form. *)
Definition exec_load (st : vstate) (m : mem) (maxpa : Z) (I : vmem) : option outcome :=
  if nf I =? 1 then
    match am I with
    | Unit => vl_strided st m maxpa (ew I) (base I) (ew I) (vreg I) (vm I)
    | Strided s => vl_strided st m maxpa (ew I) (base I) s (vreg I) (vm I)
    | Indexed _ iw vs2 => vl_indexed st m maxpa iw (base I) vs2 (vreg I) (vm I) end
  else
    match am I with
    | Unit => vl_segment st m maxpa (ew I) (base I) (nf I) (vreg I) (vm I)
    | Strided s => vl_segment_strided st m maxpa (ew I) (base I) s (nf I) (vreg I) (vm I)
    | Indexed _ iw vs2 => vl_segment_indexed st m maxpa iw (base I) vs2 (nf I) (vreg I) (vm I) end.
(** riscv_vector.isa:279-459: the semantic function of each store.  The unordered indexed segment
    stores (lines 433-444, again from 1765) are bound to VsSegmentStrided with the index width as element width; its stride
    operand is then the index vector, read as a 64-bit value at element 0. *)
Definition exec_store (st : vstate) (m : mem) (maxpa : Z) (I : vmem) : option outcome :=
  if nf I =? 1 then
    match am I with
    | Unit => vs_strided st m maxpa (ew I) (base I) (ew I) (vreg I) (vm I)
    | Strided s => vs_strided st m maxpa (ew I) (base I) s (vreg I) (vm I)
    | Indexed _ iw vs2 => vs_indexed st m maxpa iw (base I) vs2 (vreg I) (vm I) end
  else
    match am I with
    | Unit => vs_segment st m maxpa (ew I) (base I) (nf I) (vreg I) (vm I)
    | Strided s => vs_segment_strided st m maxpa (ew I) (base I) s (nf I) (vreg I) (vm I)
    | Indexed true iw vs2 => vs_segment_indexed st m maxpa iw (base I) vs2 (nf I) (vreg I) (vm I)
    | Indexed false iw vs2 =>
        obind (read_elem (vlenb (cfg st)) (regs st) vs2 8 0) (fun s =>
          vs_segment_strided st m maxpa iw (base I) (sgn 64 s) (nf I) (vreg I) (vm I)) end.
