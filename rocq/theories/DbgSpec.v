(** Debugger interface: breakpoints, stepping, the branch trace, memory access (C51-C54).
    Nothing here refers to the models. *)
From Coq Require Import ZArith Bool List.
From Verif Require Import Memory.
Import ListNotations.
Local Open Scope Z_scope.

(** ** C51: breakpoints and memory *)
(** Calls of the debugger, made while the core is halted. *)
Inductive dbg_op :=
  | SetBp (a : Z)                 (* SetSwBreakpoint *)
  | ClearBp (a : Z)               (* ClearSwBreakpoint *)
  | ClearAll                      (* ClearAllSwBreakpoints *)
  | Look (a : Z)                  (* GetInstruction, GetDisassembly *)
  | Poke (a : Z) (n : nat) (v : Z). (* WriteMemory of n bytes *)

(** Length of the instruction that starts with these bits: 2 or 4 (RISC-V unprivileged ISA,
    base instruction-length encoding; longer instructions do not exist here). *)
Definition inst_len (w : Z) : Z := if w mod 4 =? 3 then 4 else 2.
(** An instruction the debugger can break on: not of the reserved formats above 32 bits. *)
Definition known_len (w : Z) : Prop := w mod 4 = 3 -> w mod 32 <> 31.
(** The instruction at [a]. *)
Definition fetch (m : mem) (a : Z) : Z := if m a mod 4 =? 3 then load_le m a 4 else load_le m a 2.
(** The bytes it occupies. *)
Definition inst_bytes (m : mem) (a x : Z) : Prop := a <= x < a + inst_len (m a).
(** The byte a breakpoint shows in place of byte [x] of the instruction at [a]: c.ebreak is
    0x9002, ebreak is 0x00100073. *)
Definition ebreak_byte (m : mem) (a x : Z) : Z :=
  if inst_len (m a) =? 2 then nth (Z.to_nat (x - a)) [0x02; 0x90] 0 else nth (Z.to_nat (x - a)) [0x73; 0x00; 0x10; 0x00] 0.

(** What the user sees: memory in which breakpoints do not appear, the breakpoints that are set,
    and those that were set at some time. *)
Record view := { v_mem : mem; v_act : list Z; v_ever : list Z }.
Definition known_lenb (w : Z) : bool := negb (w mod 4 =? 3) || negb (w mod 32 =? 31).
Definition inb (a : Z) (l : list Z) : bool := existsb (fun b => b =? a) l.
Definition view_step (v : view) (o : dbg_op) : view :=
  match o with
  | SetBp a => if inb a (v_act v) || negb (known_lenb (fetch (v_mem v) a)) then v
               else {| v_mem := v_mem v; v_act := v_act v ++ [a]; v_ever := a :: v_ever v |}
  | ClearBp a => {| v_mem := v_mem v; v_act := filter (fun b => negb (b =? a)) (v_act v); v_ever := v_ever v |}
  | ClearAll => {| v_mem := v_mem v; v_act := []; v_ever := v_ever v |}
  | Look _ => v
  | Poke a n x => {| v_mem := store_le (v_mem v) a n x; v_act := v_act v; v_ever := v_ever v |}
  end.
(** Side conditions: breakpoints do not overlap, and memory is not written where a breakpoint
    is or was. *)
Definition dbg_good (v : view) (o : dbg_op) : Prop :=
  match o with
  | SetBp a => forall b x, In b (v_act v) -> b <> a -> inst_bytes (v_mem v) a x -> inst_bytes (v_mem v) b x -> False
  | Poke a n _ => forall b x, In b (v_ever v) -> inst_bytes (v_mem v) b x -> ~ (a <= x < a + Z.of_nat n)
  | _ => True
  end.
Fixpoint dbg_all_good (v : view) (l : list dbg_op) : Prop :=
  match l with [] => True | o :: l => dbg_good v o /\ dbg_all_good (view_step v o) l end.
Definition view_init (m : mem) : view := {| v_mem := m; v_act := []; v_ever := [] |}.
Definition view_run (m : mem) (l : list dbg_op) : view := fold_left view_step l (view_init m).

(** ** C52: the processor without a debugger *)
(** [sem s w pc]: executing instruction [w] at [pc]: new state, target if the pc was written,
    halt request if any.  [tick]: one cycle passes.  [irq s epc]: the interrupt that is taken,
    if any: new state and handler address. *)
Record cpu (S : Type) := {
  sem : S -> Z -> Z -> S * option Z * option Z;
  tick : S -> S;
  irq : S -> Z -> option (S * Z) }.
Arguments sem {S}. Arguments tick {S}. Arguments irq {S}.

(** One instruction. *)
Definition arch_step {S} (M : cpu S) (m : mem) (s : S) (pc : Z) : S * Z * option Z :=
  let '(s1, br, h) := sem M s (fetch m pc) pc in
  let s2 := tick M s1 in
  let npc := match br with Some t => t | None => pc + inst_len (m pc) end in
  match irq M s2 npc with
  | Some (s3, hpc) => (s3, hpc, h)
  | None => (s2, npc, h)
  end.

Inductive why := Finished | AtBreakpoint | Requested (r : Z).
Record outcome (S : Type) := { o_s : S; o_pc : Z; o_count : Z; o_why : why }.
Arguments o_s {S}. Arguments o_pc {S}. Arguments o_count {S}. Arguments o_why {S}.

(** What Step(n) is to do with breakpoints at [bp]: execute until n instructions are done, a
    breakpoint is reached, or an instruction requests a halt.  The instruction at which the
    previous call stopped ([resume]) does not stop again.  Reaching a breakpoint counts as a
    step and lets a cycle pass. *)
Fixpoint debug_run {S} (M : cpu S) (m : mem) (bp : Z -> bool) (resume : bool) (n : nat) (s : S) (pc count : Z) : outcome S :=
  match n with
  | O => {| o_s := s; o_pc := pc; o_count := count; o_why := Finished |}
  | Datatypes.S n =>
      if bp pc && negb resume
      then {| o_s := tick M s; o_pc := pc; o_count := count + 1; o_why := AtBreakpoint |}
      else let '(s', pc', h) := arch_step M m s pc in
           match h with
           | Some r => {| o_s := s'; o_pc := pc'; o_count := count + 1; o_why := Requested r |}
           | None => debug_run M m bp false n s' pc' (count + 1)
           end
  end.

(** The instruction addresses of a program: control stays among them and no two of them
    overlap. *)
Record text {S} (M : cpu S) (m : mem) (P : Z -> Prop) : Prop := {
  text_closed : forall s pc, P pc -> P (snd (fst (arch_step M m s pc)));
  text_apart : forall a b x, P a -> P b -> inst_bytes m a x -> inst_bytes m b x -> a = b;
  text_known : forall a, P a -> known_len (fetch m a) }.

(** ebreak and c.ebreak. *)
Definition is_ebreak (w : Z) : Prop := w = 0x9002 \/ w = 0x00100073.

(** A debugging session: the user sees processor state, pc and breakpoints; [sv_resume]: the
    last step stopped at a breakpoint, whose instruction is still to be executed. *)
Inductive sess_op := Dbg (o : dbg_op) | Step (n : Z) | WritePc (v : Z).
Record sview (S : Type) := { sv_s : S; sv_pc : Z; sv_v : view; sv_resume : bool }.
Arguments sv_s {S}. Arguments sv_pc {S}. Arguments sv_v {S}. Arguments sv_resume {S}.
Definition step_outcome {S} (M : cpu S) (x : sview S) (n : Z) : outcome S :=
  debug_run M (v_mem (sv_v x)) (fun a => inb a (v_act (sv_v x))) (sv_resume x) (Z.to_nat n) (sv_s x) (sv_pc x) 0.
(** New view, and what Step returns: the count and why it stopped. *)
Definition sview_step {S} (M : cpu S) (x : sview S) (o : sess_op) : sview S * option (Z * why) :=
  match o with
  | Dbg o => ({| sv_s := sv_s x; sv_pc := sv_pc x; sv_v := view_step (sv_v x) o; sv_resume := sv_resume x |}, None)
  | WritePc v => ({| sv_s := sv_s x; sv_pc := v; sv_v := sv_v x; sv_resume := false |}, None)
  | Step n =>
      if n <=? 0 then (x, None)
      else let o := step_outcome M x n in
           ({| sv_s := o_s o; sv_pc := o_pc o; sv_v := sv_v x; sv_resume := match o_why o with AtBreakpoint => true | _ => false end |},
            Some (o_count o, o_why o))
  end.
Fixpoint sview_run {S} (M : cpu S) (x : sview S) (l : list sess_op) : sview S * list (option (Z * why)) :=
  match l with
  | [] => (x, [])
  | o :: l => let '(x1, r) := sview_step M x o in let '(x2, rs) := sview_run M x1 l in (x2, r :: rs)
  end.
(** A fresh session. *)
Definition sview_init {S} (s : S) (pc : Z) (m : mem) : sview S := {| sv_s := s; sv_pc := pc; sv_v := view_init m; sv_resume := false |}.
(** What Run is to do, watched for [fuel] instructions (one more when it resumes at a breakpoint). *)
Definition run_outcome {S} (M : cpu S) (x : sview S) (fuel : nat) : outcome S :=
  debug_run M (v_mem (sv_v x)) (fun a => inb a (v_act (sv_v x))) (sv_resume x) (if sv_resume x then Datatypes.S fuel else fuel) (sv_s x) (sv_pc x) 0.
(** Side conditions: breakpoints are put on instructions of the program other than its own
    ebreak instructions and do not overlap; after a stop at a breakpoint the pc is not changed
    and that breakpoint is not cleared before the next step; no interrupt is pending at the
    moment a breakpoint is reached; program memory is not rewritten. *)
Definition sess_good {S} (M : cpu S) (P : Z -> Prop) (x : sview S) (o : sess_op) : Prop :=
  match o with
  | Dbg (SetBp a) => P a /\ ~ is_ebreak (fetch (v_mem (sv_v x)) a)
  | Dbg (ClearBp a) => sv_resume x = true -> a <> sv_pc x
  | Dbg ClearAll => sv_resume x = false
  | Dbg (Look _) => True
  | Dbg (Poke _ _ _) => False
  | WritePc v => P v /\ sv_resume x = false
  | Step n => let o := step_outcome M x n in
              o_why o = AtBreakpoint -> irq M (o_s o) (o_pc o + inst_len (v_mem (sv_v x) (o_pc o))) = None
  end.
Fixpoint sess_all_good {S} (M : cpu S) (P : Z -> Prop) (x : sview S) (l : list sess_op) : Prop :=
  match l with [] => True | o :: l => sess_good M P x o /\ sess_all_good M P (fst (sview_step M x o)) l end.

(** ** C53: branch traces *)
Inductive bt_op := Branch (from to : Z) | Resize (n : Z).
(** Runs of equal branches, most recent first, at most [n] of them. *)
Definition rle_add (from to : Z) (l : list (Z * Z * Z)) : list (Z * Z * Z) :=
  match l with
  | (f, t, c) :: l' => if (f =? from) && (t =? to) then (f, t, c + 1) :: l' else (from, to, 1) :: l
  | [] => [(from, to, 1)]
  end.
Definition pow2 (n : Z) : bool := (0 <? n) && (2 ^ Z.log2 n =? n).
Definition trace_spec (st : list (Z * Z * Z) * Z) (o : bt_op) : list (Z * Z * Z) * Z :=
  let '(l, size) := st in
  match o with
  | Branch f t => (firstn (Z.to_nat size) (rle_add f t l), size)
  | Resize n => if pow2 n then (firstn (Z.to_nat n) l, n) else (l, size)
  end.
(** Branch addresses have 32 bits, sizes are below 2^31. *)
Definition trace_good1 (o : bt_op) : Prop :=
  match o with Branch f t => 0 <= f < 2 ^ 32 /\ 0 <= t < 2 ^ 32 | Resize n => 0 <= n < 2 ^ 31 end.
Fixpoint trace_good (l : list bt_op) : Prop := match l with [] => True | o :: l => trace_good1 o /\ trace_good l end.
