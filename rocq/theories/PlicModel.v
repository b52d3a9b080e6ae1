(** Model of /repo/riscv/riscv_plic.cc and riscv_plic.h. *)
From Coq Require Import ZArith Bool List.
From Verif Require Import Bits PlicSpec.
Import ListNotations.
Local Open Scope Z_scope.

(** riscv_plic.h:105-151 data members; [p_line] is the last value passed to SetIrq of each
    context.  Arrays are functions, and their accesses are range-checked where the code does not
    guarantee the range: the outcome [None] is an access out of bounds or through a null
    pointer.  source_to_context_ and context_to_source_ always receive the same insertions and
    erasures; they are one list [p_map] of (source, context) pairs in insertion order, which is
    the order in which a btree_multimap keeps equal keys. *)
Record plic := {
  p_ns : Z; p_nc : Z;
  p_ready : Z -> bool; p_gpend : Z -> bool;
  p_prio : Z -> Z; p_pend : Z -> Z; p_en : Z -> Z -> Z; p_thr : Z -> Z; p_cc : Z -> Z;
  p_irq : Z -> bool; p_if : Z -> bool; p_line : Z -> bool;
  p_map : list (Z * Z) }.

(** (helper) function update, for array element assignment throughout riscv_plic.cc. *)
Definition upd {A} (f : Z -> A) (i : Z) (v : A) : Z -> A := fun j => if j =? i then v else f j.
(** (helper) single-field updates of riscv_plic.h:128-151. *)
Definition set_gw (k : plic) (ready gpend : Z -> bool) : plic :=
  {| p_ns := p_ns k; p_nc := p_nc k; p_ready := ready; p_gpend := gpend; p_prio := p_prio k; p_pend := p_pend k;
     p_en := p_en k; p_thr := p_thr k; p_cc := p_cc k; p_irq := p_irq k; p_if := p_if k; p_line := p_line k; p_map := p_map k |}.
(** Model only: record update. *)
Definition set_prio (k : plic) (v : Z -> Z) : plic :=
  {| p_ns := p_ns k; p_nc := p_nc k; p_ready := p_ready k; p_gpend := p_gpend k; p_prio := v; p_pend := p_pend k;
     p_en := p_en k; p_thr := p_thr k; p_cc := p_cc k; p_irq := p_irq k; p_if := p_if k; p_line := p_line k; p_map := p_map k |}.
(** Model only: record update. *)
Definition set_pend (k : plic) (v : Z -> Z) : plic :=
  {| p_ns := p_ns k; p_nc := p_nc k; p_ready := p_ready k; p_gpend := p_gpend k; p_prio := p_prio k; p_pend := v;
     p_en := p_en k; p_thr := p_thr k; p_cc := p_cc k; p_irq := p_irq k; p_if := p_if k; p_line := p_line k; p_map := p_map k |}.
(** Model only: record update. *)
Definition set_en (k : plic) (v : Z -> Z -> Z) : plic :=
  {| p_ns := p_ns k; p_nc := p_nc k; p_ready := p_ready k; p_gpend := p_gpend k; p_prio := p_prio k; p_pend := p_pend k;
     p_en := v; p_thr := p_thr k; p_cc := p_cc k; p_irq := p_irq k; p_if := p_if k; p_line := p_line k; p_map := p_map k |}.
(** Model only: record update. *)
Definition set_thr (k : plic) (v : Z -> Z) : plic :=
  {| p_ns := p_ns k; p_nc := p_nc k; p_ready := p_ready k; p_gpend := p_gpend k; p_prio := p_prio k; p_pend := p_pend k;
     p_en := p_en k; p_thr := v; p_cc := p_cc k; p_irq := p_irq k; p_if := p_if k; p_line := p_line k; p_map := p_map k |}.
(** Model only: record update. *)
Definition set_cc (k : plic) (v : Z -> Z) : plic :=
  {| p_ns := p_ns k; p_nc := p_nc k; p_ready := p_ready k; p_gpend := p_gpend k; p_prio := p_prio k; p_pend := p_pend k;
     p_en := p_en k; p_thr := p_thr k; p_cc := v; p_irq := p_irq k; p_if := p_if k; p_line := p_line k; p_map := p_map k |}.
(** Model only: record update. *)
Definition set_if (k : plic) (v : Z -> bool) : plic :=
  {| p_ns := p_ns k; p_nc := p_nc k; p_ready := p_ready k; p_gpend := p_gpend k; p_prio := p_prio k; p_pend := p_pend k;
     p_en := p_en k; p_thr := p_thr k; p_cc := p_cc k; p_irq := p_irq k; p_if := v; p_line := p_line k; p_map := p_map k |}.
(** Model only: record update. *)
Definition set_map (k : plic) (v : list (Z * Z)) : plic :=
  {| p_ns := p_ns k; p_nc := p_nc k; p_ready := p_ready k; p_gpend := p_gpend k; p_prio := p_prio k; p_pend := p_pend k;
     p_en := p_en k; p_thr := p_thr k; p_cc := p_cc k; p_irq := p_irq k; p_if := p_if k; p_line := p_line k; p_map := v |}.
(** The two statements context_if_[c]->SetIrq(b); context_irq_[c] = b (riscv_plic.cc:193-194,
    390-391, 428-429, 483-484, 530-531). *)
Definition set_irq (k : plic) (c : Z) (b : bool) : plic :=
  {| p_ns := p_ns k; p_nc := p_nc k; p_ready := p_ready k; p_gpend := p_gpend k; p_prio := p_prio k; p_pend := p_pend k;
     p_en := p_en k; p_thr := p_thr k; p_cc := p_cc k; p_irq := upd (p_irq k) c b; p_if := p_if k;
     p_line := upd (p_line k) c b; p_map := p_map k |}.

(** riscv_plic.cc:31-62 constructor. *)
Definition init (num_sources num_contexts : Z) : plic :=
  {| p_ns := num_sources; p_nc := num_contexts; p_ready := fun _ => true; p_gpend := fun _ => false;
     p_prio := fun _ => 0; p_pend := fun _ => 0; p_en := fun _ _ => 0; p_thr := fun _ => 0; p_cc := fun _ => 0;
     p_irq := fun _ => false; p_if := fun _ => false; p_line := fun _ => false; p_map := [] |}.

(** riscv_plic.cc:575-579 IsPending; 565-573 SetPending. *)
Definition is_pending (k : plic) (s : Z) : bool :=
  negb (Z.land (p_pend k (Z.shiftr s 5)) (Z.shiftl 1 (Z.land s 0x1f)) =? 0).
(** riscv_plic.cc:575-579. *)
Definition set_pending (k : plic) (s : Z) (v : bool) : plic :=
  let word := Z.shiftr s 5 in
  let m := Z.shiftl 1 (Z.land s 0x1f) in
  set_pend k (upd (p_pend k) word (if v then Z.lor (p_pend k word) m else Z.land (p_pend k word) (wnot 32 m))).

(** (helper) equal_range on the two multimaps (riscv_plic.cc:185, 507). *)
Definition contexts_of (k : plic) (s : Z) : list Z := map snd (filter (fun p => fst p =? s) (p_map k)).
(** riscv_plic.cc:185, 507. *)
Definition sources_of (k : plic) (c : Z) : list Z := map fst (filter (fun p => snd p =? c) (p_map k)).

(** riscv_plic.cc:171-196 SetPlicPendingInterrupt. *)
Definition set_plic_pending (k : plic) (s : Z) : plic :=
  if (s <=? 0) || (p_ns k <=? s) then k
  else if is_pending k s then k
  else let priority := p_prio k s in
  if priority =? 0 then k
  else let k1 := set_pending k s true in
  fold_left (fun k c => if priority <=? p_thr k c then k
                        else if negb (p_if k c) then k
                        else set_irq k c true) (contexts_of k1 s) k1.

(** riscv_plic.cc:143-169 SetInterrupt. *)
Definition set_interrupt (k : plic) (s : Z) (value is_level : bool) : plic :=
  if (s <? 0) || (p_ns k <=? s) then k
  else if negb value && negb is_level then k
  else if negb (p_ready k s) || negb value then
    (if is_level then set_gw k (p_ready k) (upd (p_gpend k) s value) else k)
  else
    let k1 := if is_level then set_gw k (p_ready k) (upd (p_gpend k) s true) else k in
    if p_prio k1 s =? 0 then k1
    else set_plic_pending (set_gw k1 (upd (p_ready k1) s false) (p_gpend k1)) s.

(** riscv_plic.cc:502-534 ClaimInterrupt: the scan, then the bookkeeping.  [priority] is an
    int compared with uint32_t, i.e. modulo 2^32. *)
Definition claim_scan (k : plic) (sources : list Z) : Z * Z * Z :=
  fold_left (fun '(id, priority, count) source =>
     if negb (is_pending k source) then (id, priority, count)
     else if p_prio k source <? priority then (id, priority, count)
     else if (priority =? p_prio k source) && (id <? source) then (id, priority, count)
     else (source, p_prio k source, count + 1)) sources (0, 0, 0).
(** riscv_plic.cc:502-534. *)
Definition claim (k : plic) (c : Z) : option (plic * Z) :=
  if (c <? 0) || (p_nc k <=? c) then Some (k, 0)
  else if existsb (fun s => is_pending k s && (p_ns k <=? s)) (sources_of k c) then None
  else
  let '(id, _, count0) := claim_scan k (sources_of k c) in
  let '(k1, count) :=
    if negb (id =? 0) then (set_cc (set_pending k id false) (upd (p_cc k) c id), count0 - 1) else (k, count0) in
  if count =? 0 then (if p_if k1 c then Some (set_irq k1 c false, id) else None) else Some (k1, id).

(** riscv_plic.cc:536-563 CompleteInterrupt. *)
Definition complete (k : plic) (c id : Z) : plic :=
  if (c <? 0) || (p_nc k <=? c) then k
  else if negb (existsb (fun s => s =? id) (sources_of k c)) then k
  else let source := p_cc k c in
  let k1 := set_cc k (upd (p_cc k) c 0) in
  if p_gpend k1 source && (0 <? p_prio k1 source) then set_plic_pending k1 source
  else set_gw k1 (upd (p_ready k1) source true) (p_gpend k1).

(** riscv_plic.cc:275-336 Read. *)
Definition read (k : plic) (offset : Z) : option (plic * Z) :=
  if offset <? 0x1000 then
    (let i := Z.shiftr offset 2 in if i <? p_ns k then Some (k, p_prio k i) else None)
  else if offset <? 0x2000 then
    (let o := offset - 0x1000 in if p_ns k / 32 <? o then Some (k, 0) else Some (k, p_pend k o))
  else if offset <? 0x200000 then
    (let o := offset - 0x2000 in
     let context := Z.shiftr o 7 in
     if p_nc k <=? context then Some (k, 0)
     else let word := Z.land o 0x7f in
     if p_ns k + 32 <=? word * 32 then Some (k, 0)
     else if word <=? p_ns k / 32 then Some (k, p_en k context word) else None)
  else
    (let o := offset - 0x200000 in
     let context := Z.shiftr o 12 in
     if p_nc k <=? context then Some (k, 0)
     else if Z.land o 0xfff =? 0 then Some (k, p_thr k context)
     else if Z.land o 0xfff =? 4 then claim k context
     else Some (k, 0)).

(** riscv_plic.cc:338-357 priority write. *)
Definition write_priority (k : plic) (offset value : Z) : plic :=
  let source := Z.shiftr offset 3 in
  if p_ns k <=? source then k
  else let prev := p_prio k source in
  let k1 := set_prio k (upd (p_prio k) source value) in
  if (prev =? 0) && negb (value =? 0) && p_ready k1 source && p_gpend k1 source then set_plic_pending k1 source else k1.
(** riscv_plic.cc:375-393 one newly set pending bit; the priority array is read out of bounds
    for a source beyond the last one that some context has enabled. *)
Definition pending_bit (k : plic) (s : Z) : option plic :=
  fold_left (fun ok c => match ok with None => None | Some k =>
    if p_irq k c then Some k
    else if p_ns k <=? s then None
    else if p_prio k s <=? p_thr k c then Some k
    else if negb (p_if k c) then Some k
    else Some (set_irq k c true) end) (contexts_of k s) (Some k).
(** riscv_plic.cc:360-396 pending write; the countr_zero loop visits the set bits in
    increasing order. *)
Definition write_pending (k : plic) (offset value : Z) : option plic :=
  let o := offset - 0x1000 in
  if p_ns k / 32 <? o then Some k
  else let prev := p_pend k o in
  let bits_set := Z.land (Z.lxor value prev) value in
  fold_left (fun ok bit => match ok with None => None | Some k =>
     if Z.testbit bits_set bit then pending_bit k (o * 32 + bit) else Some k end)
    (zrange 32) (Some (set_pend k (upd (p_pend k) o value))).
(** (helper) erase the first (source, context) pair, riscv_plic.cc:438-451. *)
Fixpoint erase (s c : Z) (l : list (Z * Z)) : list (Z * Z) :=
  match l with
  | [] => []
  | p :: l => if (fst p =? s) && (snd p =? c) then l else p :: erase s c l
  end.
(** riscv_plic.cc:414-432 one newly set enable bit. *)
Definition enable_bit (k : plic) (c s : Z) : option plic :=
  let k1 := set_map k (p_map k ++ [(s, c)]) in
  if negb (p_if k1 c) then Some k1
  else if p_irq k1 c then Some k1
  else if p_ns k1 <=? s then None
  else if p_thr k1 c <? p_prio k1 s then Some (set_irq k1 c true) else Some k1.
(** riscv_plic.cc:399-455 enable write. *)
Definition write_enable (k : plic) (offset value : Z) : option plic :=
  let o := Z.shiftr (offset - 0x2000) 2 in
  let word := Z.land (Z.shiftr o 2) 0x1f in
  let context := Z.shiftr o 7 in
  if (p_nc k <=? context) || (p_ns k / 32 <? word) then None
  else let prev := p_en k context word in
  let bits_set := Z.land (Z.lxor value prev) value in
  let bits_cleared := Z.land (Z.lxor value prev) (wnot 32 value) in
  let k1 := set_en k (upd (p_en k) context (upd (p_en k context) word value)) in
  match fold_left (fun ok bit => match ok with None => None | Some k =>
          if Z.testbit bits_set bit then enable_bit k context (word * 32 + bit) else Some k end)
          (zrange 32) (Some k1) with
  | None => None
  | Some k2 => Some (fold_left (fun k bit =>
          if Z.testbit bits_cleared bit then set_map k (erase (word * 32 + bit) context (p_map k)) else k)
          (zrange 32) k2)
  end.
(** riscv_plic.cc:467-491 threshold write; the priority array is read out of bounds for an
    enabled source beyond the last one. *)
Definition write_threshold (k : plic) (c value : Z) : option plic :=
  let prev := p_thr k c in
  let k1 := set_thr k (upd (p_thr k) c value) in
  if value <? prev then
    if p_irq k1 c then Some k1
    else if negb (p_if k1 c) then Some k1
    else if existsb (fun s => p_ns k1 <=? s) (sources_of k1 c) then None
    else if existsb (fun s => value <? p_prio k1 s) (sources_of k1 c) then Some (set_irq k1 c true) else Some k1
  else Some k1.
(** riscv_plic.cc:338-500 Write. *)
Definition write (k : plic) (offset value : Z) : option plic :=
  if offset <? 0x1000 then Some (write_priority k offset value)
  else if offset <? 0x2000 then write_pending k offset value
  else if offset <? 0x200000 then write_enable k offset value
  else
    let o := offset - 0x200000 in
    let context := Z.shiftr o 12 in
    if p_nc k <=? context then Some k
    else if Z.land o 0xfff =? 0 then write_threshold k context value
    else if Z.land o 0xfff =? 4 then Some (complete k context value)
    else Some k.

(** riscv_plic.cc:200-220 Load (the part that fills the buffer). *)
Definition load (k : plic) (address size : Z) : option (plic * Z) :=
  let offset := Z.land address 0xffffff in
  if (size =? 1) || (size =? 2) || (size =? 4) then
    match read k offset with None => None | Some (k1, v) => Some (k1, wrap (8 * size) v) end
  else if size =? 8 then
    match read k offset with
    | None => None
    | Some (k1, lo) => match read k1 (offset + 4) with None => None | Some (k2, hi) => Some (k2, lo + 2 ^ 32 * hi) end
    end
  else Some (k, 0).
(** riscv_plic.cc:248-263 Store: the second return of case 8 is unreachable. *)
Definition store (k : plic) (address size value : Z) : option plic :=
  let offset := Z.land address 0xffffff in
  if (size =? 1) || (size =? 2) || (size =? 4) then write k offset (wrap (8 * size) value)
  else if size =? 8 then write k offset (wrap 32 value)
  else Some k.

(** riscv_plic.cc:119-134 one (source, enable) item of a context; [None] here is the early
    return with an error status. *)
Definition configure_item (k : plic) (c : Z) (item : Z * Z) : plic :=
  let '(s, enable) := item in
  let word := s / 32 in
  let bit := Z.land s 0x1f in
  let v := Z.lor (Z.land (p_en k c word) (wnot 32 (Z.shiftl 1 bit))) (wrap 32 (Z.shiftl enable bit)) in
  set_en (set_map k (p_map k ++ [(s, c)])) (upd (p_en k) c (upd (p_en k c) word v)).
(** riscv_plic.cc:87-141 Configure after parsing (RE2 not modelled); stops at the first
    out-of-range source or context and keeps what was done before it. *)
Fixpoint configure_sources (k : plic) (l : list (Z * Z)) : plic * bool :=
  match l with
  | [] => (k, true)
  | (s, prio) :: l => if p_ns k <=? s then (k, false) else configure_sources (set_prio k (upd (p_prio k) s (wrap 32 prio))) l
  end.
(** riscv_plic.cc:87-141. *)
Fixpoint configure_items (k : plic) (c : Z) (l : list (Z * Z)) : plic * bool :=
  match l with
  | [] => (k, true)
  | it :: l => if p_ns k <=? fst it then (k, false) else configure_items (configure_item k c it) c l
  end.
(** riscv_plic.cc:87-141. *)
Fixpoint configure_contexts (k : plic) (l : list (Z * Z * list (Z * Z))) : plic * bool :=
  match l with
  | [] => (k, true)
  | (c, thr, items) :: l =>
      if p_nc k <=? c then (k, false)
      else match configure_items (set_thr k (upd (p_thr k) c (wrap 32 thr))) c items with
           | (k1, false) => (k1, false)
           | (k1, true) => configure_contexts k1 l
           end
  end.
(** riscv_plic.cc:87-141. *)
Definition configure (k : plic) (sources : list (Z * Z)) (contexts : list (Z * Z * list (Z * Z))) : plic * bool :=
  match configure_sources k sources with
  | (k1, false) => (k1, false)
  | (k1, true) => configure_contexts k1 contexts
  end.

(** One API call; the result is what a load returns (0 for the others; for Configure, 1 if it
    reports success).  riscv_plic.cc:265 SetContext does not check its argument. *)
Definition step (k : plic) (o : plic_op) : option (plic * Z) :=
  match o with
  | Configure ss cs => let '(k1, ok) := configure k ss cs in Some (k1, if ok then 1 else 0)
  | SetContext c => if (c <? 0) || (p_nc k <=? c) then None else Some (set_if k (upd (p_if k) c true), 0)
  | SetInterrupt s v l => Some (set_interrupt k s v l, 0)
  | Load a n => load k a n
  | Store a n v => match store k a n v with None => None | Some k1 => Some (k1, 0) end
  end.
(** (helper) a history of API calls and the results returned. *)
Fixpoint run (k : plic) (l : list plic_op) : option (plic * list Z) :=
  match l with
  | [] => Some (k, [])
  | o :: l => match step k o with
              | None => None
              | Some (k1, v) => match run k1 l with None => None | Some (k2, vs) => Some (k2, v :: vs) end
              end
  end.
