(** Property theorems C06, C07, C55. *)
From Coq Require Import ZArith Bool List Lia.
From Verif Require Import Bits CsrSpec XipSpec XipModel XipProofs.
Import ListNotations.
Local Open Scope Z_scope.

(** C07, full statement:
      forall m ops i, read of bit i after ops = ip_spec_read (spec after ops) i.
    Proved part 1: every bit other than SEIP, for every history. *)
Theorem mip_bits_history_partial : forall m ops i, ip_wf m -> forallb ip_op_ok ops = true ->
  0 <= i -> i <> 9 ->
  ip_read (fold_left ip_step ops m) i = ip_spec_read (fold_left ip_spec_step ops (ip_abs m)) i.
Proof. exact mip_other_bits. Qed.
Print Assumptions mip_bits_history_partial.

(** Part 2: SEIP too, for histories that update mip only while the external line is low. *)
Theorem mip_seip_quiet_history_partial : forall m ops, ip_wf m -> forallb ip_op_ok ops = true ->
  quiet (line m) ops = true ->
  ip_read (fold_left ip_step ops m) 9 = ip_spec_read (fold_left ip_spec_step ops (ip_abs m)) 9.
Proof. exact mip_seip_quiet. Qed.
Print Assumptions mip_seip_quiet_history_partial.

(** Part 3: an interrupt that should be seen in SEIP is never lost, for every history. *)
Theorem mip_seip_never_lost_partial : forall m ops, ip_wf m -> forallb ip_op_ok ops = true ->
  ip_spec_read (fold_left ip_spec_step ops (ip_abs m)) 9 = true ->
  ip_read (fold_left ip_step ops m) 9 = true.
Proof. exact mip_seip_ge. Qed.
Print Assumptions mip_seip_never_lost_partial.

Definition ip_zero : mip_t := {| ip_value := 0; ip_ext := 0 |}.
Lemma ip_zero_wf : ip_wf ip_zero.
Proof. unfold ip_wf; cbn. repeat split; [lia|intros i; rewrite Z.bits_0; discriminate|auto]. Qed.
Example mip_history_example : ip_wf ip_zero /\
  let ops := [IpField 7 1; IpWord 64 (CsrSetBits 0x222); IpLine 1; IpLine 0; IpWord 32 (CsrClearBits 0x20)] in
  forallb ip_op_ok ops = true /\ quiet (line ip_zero) ops = true /\
  mip_as_uint 64 (fold_left ip_step ops ip_zero) = 0x282.
Proof. split; [exact ip_zero_wf|]. vm_compute. auto. Qed.

(** Refuted: raising the line, a device field update (timer), lowering the line leaves
    SEIP pending for ever although software never set it. *)
Theorem mip_line_separation_refuted : exists m ops, ip_wf m /\ forallb ip_op_ok ops = true /\
  ip_read (fold_left ip_step ops m) 9 <> ip_spec_read (fold_left ip_spec_step ops (ip_abs m)) 9.
Proof.
  exists ip_zero, [IpLine 1; IpField 7 1; IpLine 0].
  split; [exact ip_zero_wf|]. split; vm_compute; congruence.
Qed.
Print Assumptions mip_line_separation_refuted.

(** mie itself behaves as an ordinary register on the architected bits. *)
Theorem mie_word_effect : forall w o e i, (w = 32 \/ w = 64) -> inw 32 e -> 0 <= i < 32 ->
  Z.testbit (fst (mie_word w o e)) i = if is_irq i then bit_step i (Z.testbit e i) o else Z.testbit e i.
Proof. exact mie_word_bits. Qed.
Print Assumptions mie_word_effect.
Example mie_word_example : inw 32 0x888 /\ fst (mie_word 32 (CsrSetBits 0xfff) 0x888) = 0xbbb.
Proof. split; [unfold inw; lia|vm_compute; reflexivity]. Qed.

(** C06, full statement: after writing v to sip each bit of mip selected by the view's
    write mask equals the bit of v, every other bit of mip is unchanged (same for
    sie/mie).  Proved part: ones are written; zeros leave the bit as it was. *)
Theorem sip_write_sets_partial : forall mideleg v m i, ip_wf m -> line m = false -> 0 <= i ->
  Z.testbit sip_wmask i = true ->
  Z.testbit (ip_value (fst (sip_write 64 mideleg v m))) i = Z.testbit (ip_value m) i || Z.testbit v i.
Proof. exact sip_write_set_main. Qed.
Print Assumptions sip_write_sets_partial.

Theorem sie_write_sets_partial : forall mideleg v e i, inw 64 e -> 0 <= i < 64 -> is_irq i = true ->
  Z.testbit (fst (sie_write 64 mideleg v e)) i = Z.testbit e i || Z.testbit v i.
Proof. exact sie_write_bits. Qed.
Print Assumptions sie_write_sets_partial.

Example sip_write_example : ip_wf ip_zero /\ Z.testbit sip_wmask 1 = true /\
  ip_value (fst (sip_write 64 0x222 0x2 ip_zero)) = 2 /\ fst (sie_write 64 0x222 0x222 0x80) = 0x2a2.
Proof. split; [exact ip_zero_wf|]. vm_compute. auto. Qed.

(** Refuted: a pending/enable bit cannot be cleared through the supervisor view. *)
Theorem sip_write_clears_refuted : exists mideleg v m i, ip_wf m /\ Z.testbit sip_wmask i = true /\
  Z.testbit v i = false /\ Z.testbit (ip_value (fst (sip_write 64 mideleg v m))) i = true.
Proof.
  exists 0x222, 0, {| ip_value := 2; ip_ext := 0 |}, 1. split; [|vm_compute; auto].
  unfold ip_wf; cbn [ip_value ip_ext]. split; [lia|]. split; [|auto].
  intros i Hi. destruct (Z.eq_dec i 1) as [->|Hn]; [reflexivity|].
  change 2 with (2 ^ 1) in Hi. rewrite Z.pow2_bits_false in Hi by lia. discriminate.
Qed.
Print Assumptions sip_write_clears_refuted.
Theorem sie_write_clears_refuted : exists mideleg v e i, inw 64 e /\ is_irq i = true /\
  Z.testbit v i = false /\ Z.testbit (fst (sie_write 64 mideleg v e)) i = true.
Proof. exists 0x222, 0, 2, 1. split; [unfold inw; lia|vm_compute; auto]. Qed.
Print Assumptions sie_write_clears_refuted.

(** Refuted: a supervisor write to sip destroys pending machine-level interrupts. *)
Theorem sip_write_preserves_machine_refuted : exists mideleg v m i, ip_wf m /\
  Z.testbit sip_wmask i = false /\ Z.testbit mideleg i = false /\
  Z.testbit (ip_value m) i = true /\ Z.testbit (ip_value (fst (sip_write 64 mideleg v m))) i = false.
Proof.
  exists 0x222, 2, {| ip_value := 2 ^ 7; ip_ext := 0 |}, 7. split; [|vm_compute; auto].
  unfold ip_wf; cbn [ip_value ip_ext]. split; [lia|]. split; [|auto].
  intros i Hi. destruct (Z.eq_dec i 7) as [->|Hn]; [reflexivity|].
  rewrite Z.pow2_bits_false in Hi by lia. discriminate.
Qed.
Print Assumptions sip_write_preserves_machine_refuted.

(** C55, full statement: sip shows a bit of mip iff the interrupt is delegated.
    Proved part: delegated interrupts are shown faithfully. *)
Theorem sip_read_delegated_partial : forall w mideleg m i, (w = 32 \/ w = 64) -> ip_wf m ->
  is_irq i = true -> Z.testbit mideleg i = true ->
  Z.testbit (sip_as_uint w mideleg m) i = ip_read m i.
Proof. exact sip_read_delegated. Qed.
Print Assumptions sip_read_delegated_partial.
(** Refuted: undelegated machine interrupts are visible in sip and sie. *)
Theorem sip_hides_undelegated_refuted : exists mideleg m e i, ip_wf m /\ Z.testbit mideleg i = false /\
  Z.testbit (sip_as_uint 64 mideleg m) i = true /\ Z.testbit (sie_as_uint 64 mideleg e) i = true.
Proof.
  exists 0, {| ip_value := 2 ^ 7; ip_ext := 0 |}, 0x80, 7. split; [|vm_compute; auto].
  unfold ip_wf; cbn [ip_value ip_ext]. split; [lia|]. split; [|auto].
  intros i Hi. destruct (Z.eq_dec i 7) as [->|Hn]; [reflexivity|].
  rewrite Z.pow2_bits_false in Hi by lia. discriminate.
Qed.
Print Assumptions sip_hides_undelegated_refuted.
