(** Theorems for C46, about everything a user of the device can see: the interrupt lines it
    drives ([k_line_t], [k_line_s]) and what loads return. *)
From Coq Require Import ZArith Bool List Lia.
From Verif Require Import Bits ClintSpec ClintModel ClintProofs.
Import ListNotations.
Local Open Scope Z_scope.

(** C46 holds for every history in which mtime is not written and the device is not reset.
    (The full claim is over every history; see the refutations below.) *)
Theorem clint_line_partial : forall period l, Forall (fun o => writes_mtime o = false) l ->
  k_line_t (run period l) = (load (run period l) a_mtimecmp 8 <=? load (run period l) a_mtime 8).
Proof. exact line_bus_main. Qed.
Print Assumptions clint_line_partial.
(** ... and after any history whatever, as soon as mtimecmp is written or mtime advances. *)
Theorem clint_line_repaired : forall period l o,
  (exists a n v, o = Store a n v /\ (a mod 0x10000 = a_mtimecmp \/ a mod 0x10000 = a_mtimecmp + 4) /\ In n [1; 2; 4; 8]) \/
  (o = Tick /\ load (run period (l ++ [o])) a_mtime 8 <> load (run period l) a_mtime 8) ->
  let k := run period (l ++ [o]) in
  k_line_t k = (load k a_mtimecmp 8 <=? load k a_mtime 8).
Proof. exact repaired_bus_main. Qed.
Print Assumptions clint_line_repaired.
Example clint_line_example :
  let h := [Store a_mtimecmp 4 2; Tick; Tick; Tick] in
  k_line_t (run 2 h) = true /\ k_line_t (run 2 (firstn 2 h)) = false /\
  k_line_t (run 2 (h ++ [Store (a_mtimecmp + 4) 4 1])) = false.
Proof. vm_compute. repeat split. Qed.
(** C46 is false after a write to mtime: the line keeps its old value ... *)
Theorem clint_line_mtime_write_refuted : exists period l v,
  let k := run period (l ++ [Store a_mtime 4 v]) in
  k_line_t k <> (load k a_mtimecmp 8 <=? load k a_mtime 8).
Proof. exists 10, [Store a_mtimecmp 4 5], 7. vm_compute. discriminate. Qed.
Print Assumptions clint_line_mtime_write_refuted.
(** ... and after a reset, which zeroes mtime and leaves a raised line raised. *)
Theorem clint_line_reset_refuted : exists period l,
  let k := run period (l ++ [Reset]) in
  k_line_t k <> (load k a_mtimecmp 8 <=? load k a_mtime 8).
Proof. exists 1, [Store a_mtimecmp 4 2; Tick]. vm_compute. discriminate. Qed.
Print Assumptions clint_line_reset_refuted.

(** C46, rate: from any reachable state, [n * period] counter updates (mixed with any loads and
    stores that do not touch mtime) advance mtime by exactly n. *)
Theorem clint_rate : forall period l l2 n, 0 < period ->
  Forall (fun o => writes_mtime o = false) l2 -> ticks l2 = n * period ->
  load (run period (l ++ l2)) a_mtime 8 = (load (run period l) a_mtime 8 + n) mod 2 ^ 64.
Proof. exact rate_period. Qed.
Print Assumptions clint_rate.
(** ... and any number of updates advance it by that number divided by the period, given how
    many updates [u] had already happened in the current period. *)
Theorem clint_rate_any : forall period l, 0 < period -> exists u, 0 <= u < period /\
  forall l2, Forall (fun o => writes_mtime o = false) l2 ->
  load (run period (l ++ l2)) a_mtime 8 = (load (run period l) a_mtime 8 + (u + ticks l2) / period) mod 2 ^ 64.
Proof. exact rate_main. Qed.
Print Assumptions clint_rate_any.
(** Construction itself counts as one update. *)
Theorem clint_rate_from_start : forall period l, 0 < period -> Forall (fun o => writes_mtime o = false) l ->
  load (run period l) a_mtime 8 = ((1 + ticks l) / period) mod 2 ^ 64.
Proof. exact first_main. Qed.
Print Assumptions clint_rate_from_start.
Example clint_rate_example : load (run 3 [Tick; Tick; Load 0 4; Tick; Tick; Tick]) a_mtime 8 = 2.
Proof. vm_compute. reflexivity. Qed.

(** C46, registers: a 32-bit write of one register word is what a later read of that word
    returns (msip keeps bit 0 only), and no other register word changes. *)
Theorem clint_registers : forall period l v r a, 0 <= v < 2 ^ 32 ->
  In r [a_msip; a_mtimecmp; a_mtimecmp + 4; a_mtime; a_mtime + 4] ->
  In a [a_msip; a_mtimecmp; a_mtimecmp + 4; a_mtime; a_mtime + 4] ->
  load (run period (l ++ [Store r 4 v])) a 4 =
  if a =? r then (if r =? a_msip then v mod 2 else v) else load (run period l) a 4.
Proof. exact raw_main. Qed.
Print Assumptions clint_registers.
Theorem clint_msip_line : forall period l v, 0 <= v < 2 ^ 32 ->
  k_line_s (run period (l ++ [Store a_msip 4 v])) = Z.odd v.
Proof. exact msip_main. Qed.
Print Assumptions clint_msip_line.
(** A 64-bit store to mtimecmp loses its upper half. *)
Theorem clint_store64_refuted : exists period v, 0 <= v < 2 ^ 64 /\
  load (run period [Store a_mtimecmp 8 v]) a_mtimecmp 8 <> v.
Proof. exists 1, (2 ^ 32). vm_compute. split; [split; [discriminate|reflexivity]|discriminate]. Qed.
Print Assumptions clint_store64_refuted.
(** A byte store to a register word clears the three bytes above it. *)
Theorem clint_store8_refuted : exists period v l,
  load (run period (l ++ [Store a_mtimecmp 1 v])) a_mtimecmp 4 / 256 <> load (run period l) a_mtimecmp 4 / 256.
Proof. exists 1, 1, [Store a_mtimecmp 4 0x12345678]. vm_compute. discriminate. Qed.
Print Assumptions clint_store8_refuted.
(** A byte load inside a register word (here byte 1 of mtime) returns 0 instead of that byte. *)
Theorem clint_load8_refuted : exists period l,
  load (run period l) (a_mtime + 1) 1 <> (load (run period l) a_mtime 4 / 256) mod 256.
Proof. exists 1, [Store a_mtime 4 0x12345678]. vm_compute. discriminate. Qed.
Print Assumptions clint_load8_refuted.
