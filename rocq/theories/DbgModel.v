(** Model of riscv_action_point_memory_interface.cc and of the execution control, branch trace
    and memory access of riscv_top.cc. *)
From Coq Require Import ZArith Bool List.
From Verif Require Import Bits Memory DbgSpec.
From Verif Require IntModel.
Import ListNotations.
Local Open Scope Z_scope.

(** riscv_action_point_memory_interface.h: memory_ and instruction_map_ (address to original
    word and size). *)
Record apmem := { am_mem : mem; am_map : Z -> option (Z * Z) }.
(** riscv_action_point_memory_interface.cc:95-100 GetInstructionSize. *)
Definition get_size (w : Z) : Z :=
  if negb (Z.land w 3 =? 3) then 2 else if negb (Z.land w 0x1f =? 0x1f) then 4 else 0.
(** riscv_action_point_memory_interface.cc:43-61 WriteOriginalInstruction; the invalidation of
    the decode cache is what makes [fetch] below read memory. *)
Definition write_original (am : apmem) (a : Z) : apmem * bool :=
  match am_map am a with
  | None => (am, false)
  | Some (w, size) =>
      ({| am_mem := if size =? 2 then store_le (am_mem am) a 2 (Z.land w 0xffff)
                    else if size =? 4 then store_le (am_mem am) a 4 w else am_mem am;
          am_map := am_map am |}, true)
  end.
(** riscv_action_point_memory_interface.cc:83-90 (kEBreak16, kEBreak32 of the header). *)
Definition plant (am : apmem) (a size : Z) : apmem :=
  {| am_mem := if size =? 2 then store_le (am_mem am) a 2 0x9002
               else if size =? 4 then store_le (am_mem am) a 4 0x00100073 else am_mem am;
     am_map := am_map am |}.
(** riscv_action_point_memory_interface.cc:63-93 WriteBreakpointInstruction. *)
Definition write_breakpoint (am : apmem) (a : Z) : apmem * bool :=
  match am_map am a with
  | Some (_, size) => (plant am a size, true)
  | None =>
      let w := load_le (am_mem am) a 4 in
      let size := get_size w in
      if size =? 0 then (am, false)
      else let w := if size =? 2 then Z.land w 0xffff else w in
           (plant {| am_mem := am_mem am; am_map := fun k => if k =? a then Some (w, size) else am_map am k |} a size, true)
  end.

(** Debugger state: the memory interface and the active action points, newest last; the flag
    says whether the point is a breakpoint.  Simplification: the managers of mpact-sim are not
    in /repo; as their interface says, setting a breakpoint that exists and clearing one that
    does not are errors without effect, SetBreakpoint calls WriteBreakpointInstruction and
    ClearBreakpoint WriteOriginalInstruction once the point has no action left (here every
    address has one action). *)
Record dbg := { d_am : apmem; d_act : list (Z * bool) }.
(** ActionPointManagerBase::IsActionPointActive (mpact-sim), used at riscv_top.cc:190, 817. *)
Definition active (l : list (Z * bool)) (a : Z) : bool := existsb (fun p => fst p =? a) l.
(** riscv_top.cc:683-695 SetSwBreakpoint, 725-733 SetActionPoint. *)
Definition set_point (d : dbg) (a : Z) (bp : bool) : dbg * bool :=
  if active (d_act d) a then (d, false)
  else let '(am, ok) := write_breakpoint (d_am d) a in
       if ok then ({| d_am := am; d_act := d_act d ++ [(a, bp)] |}, true) else ({| d_am := am; d_act := d_act d |}, false).
(** riscv_top.cc:697-706 ClearSwBreakpoint, 735-740 ClearActionPoint. *)
Definition clear_point (d : dbg) (a : Z) : dbg * bool :=
  if active (d_act d) a
  then ({| d_am := fst (write_original (d_am d) a); d_act := filter (fun p => negb (fst p =? a)) (d_act d) |}, true)
  else (d, false).
(** riscv_top.cc:712-723 ClearAllSwBreakpoints. *)
Definition clear_all (d : dbg) : dbg :=
  fold_left (fun d a => fst (clear_point d a)) (map fst (filter snd (d_act d))) d.
(** riscv_top.cc:814-833 GetInstruction: the word that is decoded. *)
Definition get_instruction (d : dbg) (a : Z) : dbg * Z :=
  if active (d_act d) a then
    let am1 := fst (write_original (d_am d) a) in
    ({| d_am := fst (write_breakpoint am1 a); d_act := d_act d |}, fetch (am_mem am1) a)
  else (d, fetch (am_mem (d_am d)) a).
(** riscv_top.cc:642-658 ReadMemory (None: an error status) and 660-677 WriteMemory; [len] is a
    size_t, [max] the value of max_physical_address(). *)
Definition read_memory (max : Z) (m : mem) (a len : Z) : option (list Z) :=
  if max <? a then None
  else let len := Z.min len (wrap 64 (wrap 64 (max - a) + 1)) in
       Some (map (fun i => m (a + i)) (zrange len)).
(** riscv_top.cc:660-677 WriteMemory of the first [len] bytes of [v]: bytes transferred. *)
Definition write_memory (max : Z) (m : mem) (a len v : Z) : option (mem * Z) :=
  if max <? a then None
  else let len := Z.min len (wrap 64 (wrap 64 (max - a) + 1)) in
       Some (store_le m a (Z.to_nat len) v, len).
(** One debugger call (for Poke the address is below the limit). *)
Definition dbg_step (d : dbg) (o : dbg_op) : dbg :=
  match o with
  | SetBp a => fst (set_point d a true)
  | ClearBp a => fst (clear_point d a)
  | ClearAll => clear_all d
  | Look a => fst (get_instruction d a)
  | Poke a n v => {| d_am := {| am_mem := store_le (am_mem (d_am d)) a n v; am_map := am_map (d_am d) |}; d_act := d_act d |}
  end.
(** Model only: a fresh debugger on memory [m], and a history of calls. *)
Definition dbg_init (m : mem) : dbg := {| d_am := {| am_mem := m; am_map := fun _ => None |}; d_act := [] |}.
(** Model only: a history of operations. *)
Definition dbg_run (d : dbg) (l : list dbg_op) : dbg := fold_left dbg_step l d.

(** riscv_top.h:57-61 BranchTraceEntry and 214-222: the ring buffer. *)
Record btrace := { b_ent : Z -> Z * Z * Z; b_head : Z; b_size : Z }.
(** riscv_top.cc:201-207, riscv_top.h:220-222. *)
Definition bt_init : btrace := {| b_ent := fun _ => (0, 0, 0); b_head := 0; b_size := 16 |}.
(** riscv_top.cc:921-932 AddToBranchTrace. *)
Definition bt_add (b : btrace) (from to : Z) : btrace :=
  let '(f, t, c) := b_ent b (b_head b) in
  if (from =? f) && (to =? t)
  then {| b_ent := fun i => if i =? b_head b then (f, t, wrap 32 (c + 1)) else b_ent b i; b_head := b_head b; b_size := b_size b |}
  else let h := Z.land (b_head b + 1) (b_size b - 1) in
       {| b_ent := fun i => if i =? h then (wrap 32 from, wrap 32 to, 1) else b_ent b i; b_head := h; b_size := b_size b |}.
(** riscv_top.cc:896-907 the copying loop: fuel = new_index + 1. *)
Fixpoint bt_copy (b : btrace) (fuel : nat) (old_index : Z) (new : Z -> Z * Z * Z) : (Z -> Z * Z * Z) * nat :=
  match fuel with
  | O => (new, O)
  | S f =>
      if 0 <? snd (b_ent b old_index) then
        let new := fun i => if i =? Z.of_nat f then b_ent b old_index else new i in
        let old_index := old_index - 1 in
        let old_index := if old_index <? 0 then b_size b - 1 else old_index in
        if old_index =? b_head b then (new, f) else bt_copy b f old_index new
      else (new, fuel)
  end.
(** riscv_top.cc:883-919 ResizeBranchTrace; [None]: InvalidArgument.  [size] is below 2^31
    (the code uses int indices).  The second loop (908-911) clears the remaining entries; the
    fresh buffer's contents are irrelevant. *)
Definition bt_resize (b : btrace) (size : Z) : option btrace :=
  if IntModel.popcount 64 size =? 1 then
    let '(new, rest) := bt_copy b (Z.to_nat size) (b_head b) (fun _ => (0, 0, 0)) in
    Some {| b_ent := fun i => if i <? Z.of_nat rest then (0, 0, 0) else new i; b_head := size - 1; b_size := size |}
  else None.
(** Model only: dispatch of one operation. *)
Definition bt_step (b : btrace) (o : bt_op) : btrace :=
  match o with
  | Branch f t => bt_add b f t
  | Resize n => match bt_resize b n with Some b' => b' | None => b end
  end.
(** What a user of $branch_trace and $branch_trace_head reads: the entries from the head
    backwards, up to the first empty one. *)
Fixpoint bt_read (b : btrace) (fuel : nat) (i : Z) : list (Z * Z * Z) :=
  match fuel with
  | O => []
  | S f => if snd (b_ent b i) =? 0 then [] else b_ent b i :: bt_read b f (if i =? 0 then b_size b - 1 else i - 1)
  end.
(** Model only: the whole trace. *)
Definition bt_list (b : btrace) : list (Z * Z * Z) := bt_read b (Z.to_nat (b_size b)) (b_head b).

(** CoreDebugInterface::HaltReason (mpact-sim); instruction semantics request the others. *)
Inductive reason := RNone | RSwBreak | RAction | ROther (r : Z).
(** riscv_top.h:184-222 and the architectural state seen from here: [t_s] everything but the
    pc, the branch flag and program memory.  Simplification: program memory is only read by
    instruction fetch; the decode cache always agrees with memory; requests to halt come only
    from instructions (no other thread); addresses do not wrap. *)
Record top (S : Type) := {
  t_s : S; t_pc : Z; t_branch : bool; t_d : dbg;
  t_reason : reason; t_halted : bool; t_paused : bool; t_need : bool;
  t_icount : Z; t_bt : btrace; t_log : list Z }.
Arguments t_s {S}. Arguments t_pc {S}. Arguments t_branch {S}. Arguments t_d {S}. Arguments t_reason {S}.
Arguments t_halted {S}. Arguments t_paused {S}. Arguments t_need {S}. Arguments t_icount {S}. Arguments t_bt {S}.
Arguments t_log {S}.

(** Model only: record updates. *)
Definition up_s {S} (t : top S) (s : S) : top S :=
  {| t_s := s; t_pc := t_pc t; t_branch := t_branch t; t_d := t_d t; t_reason := t_reason t; t_halted := t_halted t;
     t_paused := t_paused t; t_need := t_need t; t_icount := t_icount t; t_bt := t_bt t; t_log := t_log t |}.
(** riscv_top.cc:875-881 SetPc; with [b], set_branch(b). *)
Definition up_pc {S} (t : top S) (pc : Z) (b : bool) : top S :=
  {| t_s := t_s t; t_pc := pc; t_branch := b; t_d := t_d t; t_reason := t_reason t; t_halted := t_halted t;
     t_paused := t_paused t; t_need := t_need t; t_icount := t_icount t; t_bt := t_bt t; t_log := t_log t |}.
(** Model only: record update. *)
Definition up_d {S} (t : top S) (d : dbg) : top S :=
  {| t_s := t_s t; t_pc := t_pc t; t_branch := t_branch t; t_d := d; t_reason := t_reason t; t_halted := t_halted t;
     t_paused := t_paused t; t_need := t_need t; t_icount := t_icount t; t_bt := t_bt t; t_log := t_log t |}.
(** Model only: record update. *)
Definition up_flags {S} (t : top S) (r : reason) (halted paused need : bool) : top S :=
  {| t_s := t_s t; t_pc := t_pc t; t_branch := t_branch t; t_d := t_d t; t_reason := r; t_halted := halted;
     t_paused := paused; t_need := need; t_icount := t_icount t; t_bt := t_bt t; t_log := t_log t |}.
(** Model only: record update. *)
Definition up_trace {S} (t : top S) (ic : Z) (bt : btrace) (log : list Z) : top S :=
  {| t_s := t_s t; t_pc := t_pc t; t_branch := t_branch t; t_d := t_d t; t_reason := t_reason t; t_halted := t_halted t;
     t_paused := t_paused t; t_need := t_need t; t_icount := ic; t_bt := bt; t_log := log |}.

(** riscv_top.cc:849-869 RequestHalt. *)
Definition request_halt {S} (t : top S) (r : reason) : top S :=
  match r with
  | RAction => up_flags t r (t_halted t) true true
  | RSwBreak => up_flags t r true (t_paused t) true
  | _ => up_flags t r true (t_paused t) (t_need t)
  end.
(** riscv_top.cc:189-199 the ebreak handler; PerformActions calls the actions of the address:
    a breakpoint's action requests a halt (riscv_top.cc:184-186), any other is logged. *)
Definition ebreak_handler {S} (t : top S) (pc : Z) : top S :=
  let t1 := request_halt t RAction in
  if existsb (fun p => (fst p =? pc) && snd p) (d_act (t_d t)) then request_halt t1 RSwBreak
  else up_trace t1 (t_icount t1) (t_bt t1) (t_log t1 ++ [pc]).
(** riscv_top.cc:64-83 ExecuteInstruction on the instruction decoded at [pc];
    riscv_state.cc:615-620 EBreak asks the handler first. *)
Definition execute {S} (M : cpu S) (t : top S) (pc : Z) : top S :=
  let w := fetch (am_mem (d_am (t_d t))) pc in
  if ((w =? 0x9002) || (w =? 0x00100073)) && active (d_act (t_d t)) pc
  then ebreak_handler t pc
  else let '(s, br, h) := sem M (t_s t) w pc in
       let t1 := up_s t s in
       let t2 := match br with Some a => up_pc t1 a true | None => t1 end in
       match h with Some r => request_halt t2 (ROther r) | None => t2 end.
(** riscv_top.cc:275-281, 341-347, 445-452 the interrupt check. *)
Definition take_irq {S} (M : cpu S) (t : top S) (next_pc : Z) : top S :=
  match irq M (t_s t) (if t_branch t then t_pc t else next_pc) with
  | Some (s, h) => up_pc (up_s t s) h true
  | None => t
  end.
(** Size of the instruction decoded at [pc]. *)
Definition size_at {S} (t : top S) (pc : Z) : Z := inst_len (am_mem (d_am (t_d t)) pc).

(** riscv_top.cc:250-290 StepPastBreakpoint. *)
Definition step_past {S} (M : cpu S) (t : top S) : top S :=
  let pc := t_pc t in
  let d := t_d t in
  let t0 := up_d t {| d_am := fst (write_original (d_am d) pc); d_act := d_act d |} in
  let next_pc := pc + size_at t0 pc in
  let t1 := execute M t0 pc in
  let t2 := up_s t1 (tick M (t_s t1)) in
  let t3 := up_trace t2 (t_icount t2 + 1) (t_bt t2) (t_log t2) in
  let d3 := t_d t3 in
  let t4 := up_d t3 {| d_am := fst (write_breakpoint (d_am d3) pc); d_act := d_act d3 |} in
  let t5 := take_irq M t4 next_pc in
  if t_branch t5
  then up_pc (up_trace t5 (t_icount t5) (bt_add (t_bt t5) pc pc) (t_log t5)) (t_pc t5) false
  else up_pc t5 next_pc false.

(** riscv_top.cc:330-360 / 433-464: one iteration up to the next pc. *)
Definition iterate {S} (M : cpu S) (t : top S) (pc : Z) : top S * Z :=
  let t0 := up_pc t pc (t_branch t) in
  let next_pc := pc + size_at t0 pc in
  let t1 := execute M t0 pc in
  let t2 := up_s t1 (tick M (t_s t1)) in
  let t3 := take_irq M t2 next_pc in
  let t4 := up_flags t3 (t_reason t3) (t_halted t3) (t_paused t3 || t_halted t3) (t_need t3) in
  let t5 := up_trace t4 (t_icount t4 + 1) (t_bt t4) (t_log t4) in
  if t_branch t5
  then (up_pc (up_trace t5 (t_icount t5) (bt_add (t_bt t5) pc (t_pc t5)) (t_log t5)) (t_pc t5) false, t_pc t5)
  else (t5, next_pc).
(** riscv_top.cc:329-380 the loop of Step, 432-485 of Run: [fuel] is num - count for Step.
    Result: state, pc, next_pc, iterations done, and whether the loop was left. *)
Fixpoint loop {S} (M : cpu S) (fuel : nat) (t : top S) (pc next_pc count : Z) : top S * Z * Z * Z * bool :=
  if t_paused t then (t, pc, next_pc, count, true)
  else
  match fuel with
  | O => (t, pc, next_pc, count, false)
  | Datatypes.S f =>
      let '(t1, next) := iterate M t pc in
      if negb (t_paused t1) then loop M f t1 next next (count + 1)
      else match t_reason t1 with
           | RAction =>
               let t2 := step_past M t1 in
               loop M f (up_flags t2 RNone (t_halted t2) (t_halted t2) false) pc next (count + 1)
           | _ => (t1, pc, next, count + 1, true)
           end
  end.
(** riscv_top.cc:381-388 / 486-493. *)
Definition settle {S} (t : top S) (pc next_pc : Z) : top S :=
  match t_reason t with RSwBreak => up_pc t pc (t_branch t) | _ => up_pc t next_pc (t_branch t) end.
(** riscv_top.cc:292-395 Step; None: InvalidArgument.  The core is halted. *)
Definition step {S} (M : cpu S) (t : top S) (num : Z) : option (top S * Z) :=
  if num <=? 0 then None
  else
  let t0 := up_flags t RNone false false (t_need t) in
  let '(t1, count) :=
    if t_need t0 then
      let t' := step_past M (up_flags t0 RNone false false false) in
      (up_flags t' (t_reason t') (t_halted t') (t_paused t' || t_halted t') (t_need t'), 1)
    else (t0, 0) in
  let '(t2, pc, next_pc, n, _) := loop M (Z.to_nat (num - count)) t1 (t_pc t1) (t_pc t1) count in
  let t3 := settle t2 pc next_pc in
  Some (if t_halted t3 then t3 else up_flags t3 RNone (t_halted t3) (t_paused t3) (t_need t3), n).
(** riscv_top.cc:397-502 Run, then Wait: [None] when the program does not stop within [fuel]
    iterations.  Simplification: the thread is run to completion. *)
Definition run {S} (M : cpu S) (fuel : nat) (t : top S) : option (top S) :=
  let t0 := if t_need t then step_past M (up_flags t (t_reason t) (t_halted t) (t_paused t) false) else t in
  let t1 := up_flags t0 RNone false false (t_need t0) in
  let '(t2, pc, next_pc, _, done) := loop M fuel t1 (t_pc t1) (t_pc t1) 0 in
  if done then Some (settle t2 pc next_pc) else None.
(** riscv_top.cc:569-624 WriteRegister of "pc". *)
Definition write_pc {S} (t : top S) (v : Z) : top S :=
  up_pc (match t_reason t with RSwBreak => up_flags t RNone (t_halted t) (t_paused t) (t_need t) | _ => t end) v (t_branch t).
(** Model only: a fresh simulator. *)
Definition top_init {S} (s : S) (pc : Z) (m : mem) : top S :=
  {| t_s := s; t_pc := pc; t_branch := false; t_d := dbg_init m; t_reason := RNone; t_halted := false; t_paused := false;
     t_need := false; t_icount := 0; t_bt := bt_init; t_log := [] |}.
(** Model only: the halt reason that reports why a step stopped. *)
Definition reason_of (w : why) : reason := match w with Finished => RNone | AtBreakpoint => RSwBreak | Requested r => ROther r end.
(** Model only: one call of a session; for Step the count returned and the halt reason. *)
Definition sess_step {S} (M : cpu S) (t : top S) (o : sess_op) : top S * option (Z * reason) :=
  match o with
  | Dbg o => (up_d t (dbg_step (t_d t) o), None)
  | WritePc v => (write_pc t v, None)
  | Step n => match step M t n with Some (t1, c) => (t1, Some (c, t_reason t1)) | None => (t, None) end
  end.
(** Model only: a session. *)
Fixpoint sess_run {S} (M : cpu S) (t : top S) (l : list sess_op) : top S * list (option (Z * reason)) :=
  match l with
  | [] => (t, [])
  | o :: l => let '(t1, r) := sess_step M t o in let '(t2, rs) := sess_run M t1 l in (t2, r :: rs)
  end.
