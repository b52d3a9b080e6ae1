(** Property theorems C08, C09. *)
From Coq Require Import ZArith Bool List Lia.
From Verif Require Import Bits CsrSpec CounterSpec CounterModel CounterProofs.
Import ListNotations.
Local Open Scope Z_scope.

(** C08.  Any number of counter CSRs on one event source, any history of events and CSR
    accesses: each counter reads as an independent register that advances with the events. *)
Theorem counters_refine : forall w s ops, 0 <= w <= 64 ->
  ctr_vals w (fold_left (ctr_step w) ops s) = fold_left (ctr_spec_step w) ops (ctr_vals w s).
Proof. exact ctr_run_refines. Qed.
Print Assumptions counters_refine.

(** C08.  Accesses never touch the event counter itself. *)
Theorem event_counter_only_events : forall w s ops, inw 64 (ct_ev s) ->
  ct_ev (fold_left (ctr_step w) ops s) = wrap 64 (ct_ev s + count_events ops).
Proof. exact ctr_run_events. Qed.
Print Assumptions event_counter_only_events.

(** C08, retired-instruction counter: the writing instruction itself retires after the
    write and is not counted, so after n >= 1 retirements the counter shows v + (n - 1). *)
Theorem performance_counter_law : forall w ev v n, 0 <= w <= 64 ->
  c_get w (wrap 64 (ev + n)) (pc_set w ev v) = wrap w (v + n - 1).
Proof. exact pc_law. Qed.
Print Assumptions performance_counter_law.

Example counters_example : inw 64 7 /\
  ctr_vals 64 (fold_left (ctr_step 64)
    [Events 3; Access 0 (CsrWrite (2 ^ 64 - 2)); Events 5; Access 1 (CsrSetBits 0x100)]
    {| ct_ev := 7; ct_offs := [0; 10] |}) = [3; 0x119].
Proof. split; [unfold inw; lia|vm_compute; reflexivity]. Qed.

(** C09, full statement: for every history, the pair of CSRs shows the 64-bit counter of
    [pair_spec_step].  Proved: histories that write only the high half; ... *)
Theorem counter_pair_high_writes_partial : forall p ops, pair_wf p -> forallb no_low ops = true ->
  pair_val (fold_left pair_step ops p) = fold_left pair_spec_step ops (pair_val p).
Proof. exact pair_run_no_low. Qed.
Print Assumptions counter_pair_high_writes_partial.

(** ... the sequence low, then high, from any state, with any number of events; ... *)
Theorem counter_pair_low_then_high_partial : forall p L n H m, pair_wf p ->
  pair_val (fold_left pair_step [PWriteLow L; PEvents n; PWriteHigh H; PEvents m] p) =
  wrap 64 (wrap 32 H * 2 ^ 32 + wrap 32 (L + n) + m).
Proof. exact pair_low_then_high. Qed.
Print Assumptions counter_pair_low_then_high_partial.

(** ... the exact effect of a low write: right low half, high half off by the carry; ... *)
Theorem counter_pair_low_write_partial : forall p v, pair_wf p ->
  pair_low (pair_step p (PWriteLow v)) = wrap 32 v /\
  (let carry lo := (if 2 ^ 32 <=? wrap 32 (pr_ev p) + lo then 1 else 0) in
   pair_high (pair_step p (PWriteLow v)) =
   wrap 32 (pair_high p + carry (pr_lo (pair_step p (PWriteLow v))) - carry (pr_lo p))).
Proof. exact pair_write_low. Qed.
Print Assumptions counter_pair_low_write_partial.

(** ... and the high half of the retired-instruction counter (written value visible after
    the writing instruction has retired). *)
Theorem performance_pair_high_write_partial : forall p v, pair_wf p ->
  pair_val (ppair_step p (PWriteHigh v)) = wrap 64 (wrap 32 v * 2 ^ 32 + wrap 32 (pair_val p) - 1) /\
  pair_wf (ppair_step p (PWriteHigh v)).
Proof. exact ppair_write_high. Qed.
Print Assumptions performance_pair_high_write_partial.

Definition ex_pair : pair := {| pr_ev := 5; pr_lo := 0; pr_hi := 0 |}.
Example pair_example : pair_wf ex_pair /\
  pair_val (fold_left pair_step [PWriteLow (2 ^ 32 - 1); PEvents 1; PWriteHigh 7; PEvents 3] ex_pair) = 7 * 2 ^ 32 + 3.
Proof. split; [unfold pair_wf, inw; cbn; lia|vm_compute; reflexivity]. Qed.

(** Refuted: writing the low half of the cycle counter changes the high half. *)
Theorem counter_pair_low_write_disturbs_high_refuted : exists p v, pair_wf p /\
  pair_high (pair_step p (PWriteLow v)) <> pair_high p.
Proof. exists ex_pair, 3. split; [unfold pair_wf, inw; cbn; lia|vm_compute; congruence]. Qed.
Print Assumptions counter_pair_low_write_disturbs_high_refuted.

(** Refuted: writing high then low does not yield the 64-bit value written. *)
Theorem counter_pair_high_then_low_refuted : exists p L H, pair_wf p /\
  pair_val (fold_left pair_step [PWriteHigh H; PWriteLow L] p) <> wrap 32 H * 2 ^ 32 + wrap 32 L.
Proof. exists ex_pair, 0, 0. split; [unfold pair_wf, inw; cbn; lia|vm_compute; congruence]. Qed.
Print Assumptions counter_pair_high_then_low_refuted.

(** Refuted: on RV32 a plain exception (Trap rewrites minstret with its own value)
    bumps minstreth. *)
Theorem trap_keeps_minstreth_refuted : exists p, pair_wf p /\ pair_high (ppair_trap p) = pair_high p + 1.
Proof. exists ex_pair. split; [unfold pair_wf, inw; cbn; lia|vm_compute; reflexivity]. Qed.
Print Assumptions trap_keeps_minstreth_refuted.
