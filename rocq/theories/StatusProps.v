(** Property theorems C04, C05. *)
From Coq Require Import ZArith Bool List Lia.
From Verif Require Import Bits CsrSpec StatusSpec StatusModel StatusProofs.
Import ListNotations.
Local Open Scope Z_scope.

(** C04.  For every history of staged field updates, submits and word accesses (32 or
    64 bit), every field getter returns what the per-field specification says: staged
    values become visible together at Submit, in no other way, and never disturb
    another field. *)
Theorem mstatus_fields_refine : forall has_s v ops f, forallb status_op_ok ops = true ->
  ms_get f (fold_left (status_step has_s) ops (fresh_status v)) =
  sp_cur (fold_left (status_spec_step has_s) ops (spec_of v)) f.
Proof. exact status_history_main. Qed.
Print Assumptions mstatus_fields_refine.

(** C04.  The getter reads the architected bits of the stored word. *)
Theorem mstatus_getter_layout : forall f s, ms_get f s = field_of f (ms_value s).
Proof. exact ms_get_field. Qed.
Print Assumptions mstatus_getter_layout.

(** C04.  Nothing is visible before Submit: staging never changes the stored word. *)
Theorem mstatus_staging_invisible : forall has_s s ops, forallb is_stage ops = true ->
  ms_value (fold_left (status_step has_s) ops s) = ms_value s.
Proof. exact run_stage. Qed.
Print Assumptions mstatus_staging_invisible.

(** C04, bits that belong to no field never change (histories without 32-bit words). *)
Theorem mstatus_reserved_bits_kept_partial : forall has_s v ops i, 0 <= i < 64 ->
  (forall f, in_field i f = false) ->
  forallb status_op_ok ops = true -> forallb not_word32 ops = true ->
  Z.testbit (ms_value (fold_left (status_step has_s) ops (fresh_status v))) i = Z.testbit v i.
Proof. exact run_outside. Qed.
Print Assumptions mstatus_reserved_bits_kept_partial.

(** C04, UXL and SXL survive every access of any width. *)
Theorem mstatus_xl_kept : forall has_s s ops i, 32 <= i <= 35 ->
  Z.testbit (ms_value (fold_left (status_step has_s) ops s)) i = Z.testbit (ms_value s) i.
Proof. exact run_xl. Qed.
Print Assumptions mstatus_xl_kept.

(** The restriction to 64-bit words above is needed: a 32-bit write clears the
    read-only dirty bit SD (riscv_xstatus.cc:80 drops all unwritable bits). *)
Theorem mstatus_write32_keeps_sd_refuted : exists s v,
  ms_wf s /\ ms_sd s = true /\ ms_sd (fst (ms_word 32 (CsrWrite v) s)) = false.
Proof.
  exists (fresh_status (2 ^ 63)), 0. split; [unfold ms_wf, inw; cbn; lia|]. split; vm_compute; reflexivity.
Qed.
Print Assumptions mstatus_write32_keeps_sd_refuted.

Definition ex_status_ops :=
  [SetField F_MPP 3; SetField F_MIE 0; SetField F_MPIE 1; Submit; Word 32 (CsrSetBits 0x2);
   SetField F_MPP 1; SetField F_FS 3; Submit].
Example mstatus_example : forallb status_op_ok ex_status_ops = true /\
  ms_value (fold_left (status_step true) ex_status_ops (fresh_status 0xa00002008)) = 0xa00006882 /\
  ms_get F_MPP (fold_left (status_step false) ex_status_ops (fresh_status 0xa00002008)) = 3.
Proof. repeat split; vm_compute; reflexivity. Qed.
Example mstatus_reserved_example : in_field 9 F_SPP = false /\ forall f, in_field 63 f = false.
Proof. split; [reflexivity|intros []; reflexivity]. Qed.

(** C05, writes.  Any access to sstatus, 32 or 64 bit wide, changes exactly the
    supervisor-writable bits of mstatus, as an ordinary CSR bit; nothing is staged. *)
Theorem sstatus_write_effect : forall w o s i, (w = 32 \/ w = 64) -> 0 <= i < 64 ->
  Z.testbit (ms_value (fst (sstatus_word w o s))) i =
  if s_write_bit i then bit_step i (Z.testbit (ms_value s) i) o else Z.testbit (ms_value s) i.
Proof. exact sstatus_word_bit. Qed.
Print Assumptions sstatus_write_effect.

Theorem sstatus_write_stages_nothing : forall w o s,
  ms_buf (fst (sstatus_word w o s)) = ms_buf s /\ ms_bufmask (fst (sstatus_word w o s)) = ms_bufmask s.
Proof. exact sstatus_word_rest. Qed.
Print Assumptions sstatus_write_stages_nothing.

Example sstatus_write_example :
  ms_value (fst (sstatus_word 64 (CsrWrite (2 ^ 64 - 1)) (fresh_status 0x1800))) = 0xdf933.
Proof. vm_compute. reflexivity. Qed.

(** C05, reads: full statement
      forall s i, testbit (read of sstatus) i = s_read_bit i && testbit mstatus i
    Proved part: supervisor-visible bits read correctly. *)
Theorem sstatus_read_visible_partial : forall s i, 0 <= i < 64 -> s_read_bit i = true ->
  Z.testbit (sstatus_as_uint64 s) i = Z.testbit (ms_value s) i.
Proof. exact sstatus_read_visible. Qed.
Print Assumptions sstatus_read_visible_partial.

(** Refuted part: machine-only fields (here MIE and MPP) leak into a read of sstatus. *)
Theorem sstatus_read_hides_machine_bits_refuted : exists s, ms_wf s /\
  s_read_bit 3 = false /\ Z.testbit (sstatus_as_uint64 s) 3 = true /\
  s_read_bit 11 = false /\ Z.testbit (sstatus_as_uint64 s) 11 = true.
Proof.
  exists (fresh_status 0x1808). split; [unfold ms_wf, inw; cbn; lia|]. repeat split; vm_compute; reflexivity.
Qed.
Print Assumptions sstatus_read_hides_machine_bits_refuted.
