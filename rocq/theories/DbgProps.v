(** C51-C54. *)
From Coq Require Import ZArith Bool List Lia.
From Verif Require Import Bits Memory DbgSpec DbgModel DbgProofs DbgProofs2 DbgProofs3 DbgProofs4.
Import ListNotations.
Local Open Scope Z_scope.

(** ** C51 *)
(** Whatever breakpoints are set and cleared, in any order (none overlapping, no write to the
    place of one): memory reads as the user's except at the instructions that have a breakpoint,
    which read as ebreak. *)
Theorem breakpoints_partial m l : byte_mem m -> dbg_all_good (view_init m) l ->
  let v := view_run m l in let d := dbg_run (dbg_init m) l in
  map fst (d_act d) = v_act v /\
  (forall a x, In a (v_act v) -> inst_bytes (v_mem v) a x -> am_mem (d_am d) x = ebreak_byte (v_mem v) a x) /\
  (forall x, (forall a, In a (v_act v) -> ~ inst_bytes (v_mem v) a x) -> am_mem (d_am d) x = v_mem v x).
Proof. exact (breakpoints_main m l). Qed.
Print Assumptions breakpoints_partial.
(** Once no breakpoint is left every byte is back. *)
Theorem breakpoints_restored_partial m l : byte_mem m -> dbg_all_good (view_init m) l -> v_act (view_run m l) = [] ->
  forall x, am_mem (d_am (dbg_run (dbg_init m) l)) x = v_mem (view_run m l) x.
Proof. exact (cleared_main m l). Qed.
Print Assumptions breakpoints_restored_partial.
(** GetInstruction shows the program's instruction even where a breakpoint is set. *)
Theorem get_instruction_transparent_partial m l a : byte_mem m -> dbg_all_good (view_init m) l ->
  (forall b x, In b (v_act (view_run m l)) -> b <> a -> inst_bytes (v_mem (view_run m l)) a x -> inst_bytes (v_mem (view_run m l)) b x -> False) ->
  snd (get_instruction (dbg_run (dbg_init m) l) a) = fetch (v_mem (view_run m l)) a.
Proof. exact (look_main m l a). Qed.
Print Assumptions get_instruction_transparent_partial.

Definition bp_history := [SetBp 0x104; SetBp 0x106; Look 0x104; Poke 0x10a 2 0x8082; ClearBp 0x106; SetBp 0x100; ClearBp 0x104].
Example bp_history_good : dbg_all_good (view_init prog) bp_history /\ v_act (view_run prog bp_history) = [0x100] /\
  map (am_mem (d_am (dbg_run (dbg_init prog) bp_history))) [0x100; 0x101; 0x102; 0x103; 0x104; 0x105; 0x10a; 0x10b] =
    [0x73; 0x00; 0x10; 0x00; 0x86; 0x00; 0x82; 0x80].
Proof.
  split; [apply dbg_all_goodb_ok|split]; vm_compute; reflexivity.
Qed.

(** Overlapping breakpoints, cleared in the order they were set, leave wrong bytes. *)
Theorem breakpoints_overlap_refuted : exists l, v_act (view_run prog l) = [] /\
  (forall a n v, ~ In (Poke a n v) l) /\
  exists x, am_mem (d_am (dbg_run (dbg_init prog) l)) x <> prog x.
Proof.
  exists [SetBp 0x106; SetBp 0x108; ClearBp 0x106; ClearBp 0x108]. split; [vm_compute; reflexivity|]. split.
  - intros a n v H. cbn in H. intuition discriminate.
  - exists 0x108. vm_compute. discriminate.
Qed.
Print Assumptions breakpoints_overlap_refuted.
(** The word saved at the first setting is never refreshed: an instruction written while no
    breakpoint is set is lost when one is set there again and cleared. *)
Theorem breakpoints_stale_refuted : exists l x, v_act (view_run prog l) = [] /\
  l = [SetBp 0x104; ClearBp 0x104; Poke 0x104 2 1; SetBp 0x104; ClearBp 0x104] /\
  am_mem (d_am (dbg_run (dbg_init prog) l)) x <> v_mem (view_run prog l) x.
Proof. eexists _, 0x104. split; [|split; [reflexivity|]]; vm_compute; [reflexivity|discriminate]. Qed.
Print Assumptions breakpoints_stale_refuted.
(** A write to an instruction that has a breakpoint is undone by clearing the breakpoint. *)
Theorem breakpoints_poke_refuted : exists l x, v_act (view_run prog l) = [] /\ l = [SetBp 0x104; Poke 0x104 2 1; ClearBp 0x104] /\
  am_mem (d_am (dbg_run (dbg_init prog) l)) x <> v_mem (view_run prog l) x.
Proof. eexists _, 0x104. split; [|split; [reflexivity|]]; vm_compute; [reflexivity|discriminate]. Qed.
Print Assumptions breakpoints_poke_refuted.
(** ReadMemory shows the breakpoint instead of the program. *)
Theorem read_memory_shows_breakpoint_refuted :
  read_memory 0xffff (am_mem (d_am (dbg_run (dbg_init prog) [SetBp 0x104]))) 0x104 2 = Some [0x02; 0x90] /\
  read_memory 0xffff prog 0x104 2 = Some [0x86; 0x00].
Proof. split; vm_compute; reflexivity. Qed.
Print Assumptions read_memory_shows_breakpoint_refuted.

(** ** C52 *)
(** Under the side conditions of [sess_all_good] a session of breakpoint calls, pc writes and
    steps behaves as the program run without a debugger: same state, same pc, Step returns the
    number of instructions and why it stopped, and memory is the program's except at set
    breakpoints. *)
Theorem session_partial S (M : cpu S) m P s pc l : byte_mem m -> text M m P -> P pc -> sess_all_good M P (sview_init s pc m) l ->
  let x := sview_run M (sview_init s pc m) l in let t := sess_run M (top_init s pc m) l in
  t_s (fst t) = sv_s (fst x) /\ t_pc (fst t) = sv_pc (fst x) /\
  snd t = map (option_map (fun r => (fst r, reason_of (snd r)))) (snd x) /\
  (forall y, (forall a, In a (v_act (sv_v (fst x))) -> ~ inst_bytes m a y) -> am_mem (d_am (t_d (fst t))) y = m y).
Proof. exact (session_main M m P s pc l). Qed.
Print Assumptions session_partial.
(** Run, from any state a session reaches, stops where the program would: at the first
    breakpoint or request to halt, unless the instruction at which it resumes asks for a halt. *)
Theorem run_partial S (M : cpu S) m P s pc l fuel : byte_mem m -> text M m P -> P pc -> sess_all_good M P (sview_init s pc m) l ->
  let x := fst (sview_run M (sview_init s pc m) l) in let t := fst (sess_run M (top_init s pc m) l) in
  (sv_resume x = true -> snd (arch_step M m (sv_s x) (sv_pc x)) = None) ->
  let o := run_outcome M x fuel in
  (o_why o = AtBreakpoint -> irq M (o_s o) (o_pc o + inst_len (m (o_pc o))) = None) ->
  match o_why o with
  | Finished => run M fuel t = None
  | w => exists t', run M fuel t = Some t' /\ t_s t' = o_s o /\ t_pc t' = o_pc o /\ t_reason t' = reason_of w
  end.
Proof. exact (run_main M m P s pc l fuel). Qed.
Print Assumptions run_partial.

Definition ex_session := [Dbg (SetBp 0x104); Dbg (SetBp 0x106); Step 5; Step 1; Dbg (ClearBp 0x104); Step 9; Step 4; Step 1; Dbg ClearAll; Step 7; WritePc 0x10a; Step 3].
Example ex_session_results :
  sess_all_good (toy None) prog_pc (sview_init toy0 0x100 prog) ex_session /\
  snd (sess_run (toy None) T0 ex_session) =
    [None; None; Some (2, RSwBreak); Some (1, RNone); None; Some (1, RSwBreak); Some (4, RSwBreak); Some (1, RNone); None; Some (7, RNone); None; Some (1, ROther 7)] /\
  x1 (t_s (fst (sess_run (toy None) T0 ex_session))) = 111 /\ t_pc (fst (sess_run (toy None) T0 ex_session)) = 0x100.
Proof.
  split; [apply (sess_all_goodb_ok _ pcs); vm_compute; reflexivity|]. split; [|split]; vm_compute; reflexivity.
Qed.
Example ex_run :
  let l := [Dbg (SetBp 0x104); Step 5; Dbg (SetBp 0x106)] in
  sess_all_good (toy None) prog_pc (sview_init toy0 0x100 prog) l /\
  option_map (fun t => (x1 (t_s t), t_pc t, t_reason t)) (run (toy None) 9 (fst (sess_run (toy None) T0 l))) = Some (12, 0x106, RSwBreak).
Proof. cbv zeta. split; [apply (sess_all_goodb_ok _ pcs)|]; vm_compute; reflexivity. Qed.
Example ex_text : text (toy None) prog prog_pc /\ byte_mem prog /\ prog_pc 0x100.
Proof. split; [apply toy_text|]. split; [exact prog_bytes|left; reflexivity]. Qed.

(** After a stop at a breakpoint: moving the pc and stepping plants an ebreak at the new pc,
    where no breakpoint is set. *)
Theorem step_after_pc_change_refuted :
  let t := write_pc (after_step None (dbg_call T0 (SetBp 0x104)) 5) 0x106 in
  let t' := after_step None t 1 in
  map fst (d_act (t_d t')) = [0x104] /\ see t [0x106; 0x107; 0x108; 0x109] = [0x6f; 0xf0; 0xbf; 0xff] /\
  see t' [0x106; 0x107; 0x108; 0x109] = [0x73; 0x00; 0x10; 0x00].
Proof. cbv zeta. split; [|split]; vm_compute; reflexivity. Qed.
Print Assumptions step_after_pc_change_refuted.
(** After a stop at a breakpoint: clearing the breakpoint and stepping puts the ebreak back. *)
Theorem step_after_clear_refuted :
  let t := dbg_call (after_step None (dbg_call T0 (SetBp 0x104)) 5) (ClearBp 0x104) in
  let t' := after_step None t 1 in
  d_act (t_d t') = [] /\ see t [0x104; 0x105] = [0x86; 0x00] /\ see t' [0x104; 0x105] = [0x02; 0x90].
Proof. cbv zeta. split; [|split]; vm_compute; reflexivity. Qed.
Print Assumptions step_after_clear_refuted.
(** An interrupt pending when a breakpoint is reached is taken (its return address even lies
    after the instruction not yet executed), but the pc is set back to the breakpoint: the next
    step executes the program, not the handler at 0x100. *)
Theorem breakpoint_loses_interrupt_refuted :
  let t := after_step (Some 2) (dbg_call T0 (SetBp 0x104)) 5 in
  saved (t_s t) = Some 0x106 /\ t_pc t = 0x104 /\
  show (step (toy (Some 2)) t 1) = Some (12, 0x106, 1, RNone).
Proof. cbv zeta. split; [|split]; vm_compute; reflexivity. Qed.
Print Assumptions breakpoint_loses_interrupt_refuted.
(** An action point: Step(2) executes its instruction twice, and the next instruction not. *)
Theorem action_point_twice_refuted :
  show (step (toy None) T0 2) = Some (12, 0x106, 2, RNone) /\
  show (step (toy None) (at_point 0x100 false T0) 2) = Some (7, 0x104, 2, RNone).
Proof. split; vm_compute; reflexivity. Qed.
Print Assumptions action_point_twice_refuted.
(** An action point on a jump: Step(1) leaves the pc after the jump instead of at its target. *)
Theorem action_point_jump_refuted :
  show (step (toy None) (write_pc T0 0x106) 1) = Some (5, 0x100, 1, RNone) /\
  show (step (toy None) (at_point 0x106 false (write_pc T0 0x106)) 1) = Some (5, 0x10a, 1, RNone).
Proof. split; vm_compute; reflexivity. Qed.
Print Assumptions action_point_jump_refuted.
(** Run never gets past an action point: a program that halts after two instructions does not
    stop, however long one waits. *)
Theorem action_point_livelock_refuted :
  option_map (fun t => (x1 (t_s t), t_reason t)) (run (toy None) 2 (top_init toy0 0x200 prog2)) = Some (6, ROther 7) /\
  forall fuel, run (toy None) fuel (at_point 0x200 false (top_init toy0 0x200 prog2)) = None.
Proof. split; [vm_compute; reflexivity|exact run_livelock]. Qed.
Print Assumptions action_point_livelock_refuted.
(** The instruction counter counts the stop at a breakpoint as an instruction: after one
    executed instruction it reads 2. *)
Theorem breakpoint_counts_refuted :
  let t := after_step None (dbg_call T0 (SetBp 0x104)) 5 in x1 (t_s t) = 6 /\ t_pc t = 0x104 /\ t_icount t = 2.
Proof. cbv zeta. split; [|split]; vm_compute; reflexivity. Qed.
Print Assumptions breakpoint_counts_refuted.
(** Run drops a request to halt made by the instruction at which it resumes. *)
Theorem run_drops_halt_refuted :
  let t := after_step None (dbg_call (write_pc T0 0x10a) (SetBp 0x10a)) 1 in
  t_pc t = 0x10a /\ show (step (toy None) t 9) = Some (5, 0x100, 1, ROther 7) /\
  option_map (fun t => t_reason t) (run (toy None) 100 t) = None.
Proof. cbv zeta. split; [|split]; vm_compute; reflexivity. Qed.
Print Assumptions run_drops_halt_refuted.
(** A jump stepped past after a breakpoint stop enters the branch trace with its own address as
    target. *)
Theorem breakpoint_trace_target_refuted :
  let t := after_step None (after_step None (dbg_call (write_pc T0 0x106) (SetBp 0x106)) 1) 1 in
  t_pc t = 0x100 /\ bt_list (t_bt t) = [(0x106, 0x106, 1)] /\ bt_list (t_bt (after_step None (write_pc T0 0x106) 1)) = [(0x106, 0x100, 1)].
Proof. cbv zeta. split; [|split]; vm_compute; reflexivity. Qed.
Print Assumptions breakpoint_trace_target_refuted.

(** ** C53 *)
(** After any history of branches (32-bit addresses) and changes of size, the trace read from
    its head backwards is the run-length compressed history, cut to the size. *)
Theorem branch_trace_partial l : trace_good l -> Z.of_nat (length l) < 2 ^ 32 ->
  bt_list (fold_left bt_step l bt_init) = fst (fold_left trace_spec l ([], 16)).
Proof. exact (trace_main l). Qed.
Print Assumptions branch_trace_partial.
Example branch_trace_ex :
  let l := [Branch 4 8; Branch 4 8; Branch 8 4; Resize 2; Branch 12 0; Branch 12 0; Branch 16 4; Resize 3; Resize 4; Branch 20 8] in
  trace_good l /\ bt_list (fold_left bt_step l bt_init) = [(20, 8, 1); (16, 4, 1); (12, 0, 2)].
Proof. cbv zeta. split; [cbn [trace_good trace_good1]; repeat split; lia|vm_compute; reflexivity]. Qed.
(** Addresses are stored in 32 bits: a repeated branch above is neither compressed nor kept
    whole. *)
Theorem branch_trace_wide_refuted :
  let l := [Branch 0x100000004 8; Branch 0x100000004 8] in
  bt_list (fold_left bt_step l bt_init) = [(4, 8, 1); (4, 8, 1)] /\ fst (fold_left trace_spec l ([], 16)) = [(0x100000004, 8, 2)].
Proof. cbv zeta. split; vm_compute; reflexivity. Qed.
Print Assumptions branch_trace_wide_refuted.

(** ** C54 *)
(** ReadMemory: the bytes from [a] on, at most to the limit; an error above the limit. *)
Theorem read_memory_correct max m a len : 0 <= a < 2 ^ 64 -> 0 <= max < 2 ^ 64 - 1 -> 0 <= len < 2 ^ 64 ->
  read_memory max m a len = if max <? a then None else Some (map (fun i => m (a + i)) (zrange (Z.min len (max - a + 1)))).
Proof. exact (read_main max m a len). Qed.
Print Assumptions read_memory_correct.
(** WriteMemory: byte i of the buffer goes to a + i, nothing else changes, and nothing above
    the limit. *)
Theorem write_memory_correct max m a len v : 0 <= a < 2 ^ 64 -> 0 <= max < 2 ^ 64 - 1 -> 0 <= len < 2 ^ 64 ->
  match write_memory max m a len v with
  | None => max < a
  | Some (m', n) => a <= max /\ n = Z.min len (max - a + 1) /\
      (forall i, 0 <= i < n -> m' (a + i) = (v / 2 ^ (8 * i)) mod 256) /\
      (forall x, ~ (a <= x < a + n) -> m' x = m x)
  end.
Proof. exact (write_main max m a len v). Qed.
Print Assumptions write_memory_correct.
Theorem write_then_read max m a len v m' n : 0 <= a < 2 ^ 64 -> 0 <= max < 2 ^ 64 - 1 -> 0 <= len < 2 ^ 64 ->
  write_memory max m a len v = Some (m', n) ->
  read_memory max m' a len = Some (map (fun i => (v / 2 ^ (8 * i)) mod 256) (zrange n)).
Proof. exact (write_read_main max m a len v m' n). Qed.
Print Assumptions write_then_read.
Example write_then_read_ex :
  option_map snd (write_memory 0x105 prog 0x104 8 0x8877665544332211) = Some 2 /\
  match write_memory 0x105 prog 0x104 8 0x8877665544332211 with Some (m', _) => read_memory 0x105 m' 0x104 8 | None => None end = Some [0x11; 0x22].
Proof. split; vm_compute; reflexivity. Qed.
