(** C100: $mode is the privilege mode. *)
From Coq Require Import ZArith List Bool Lia.
From Verif Require Import SimModeSpec SimModeModel.
Import ListNotations.
Local Open Scope Z_scope.

(** ---- two bits ---- *)
Lemma two_bits : forall v, 0 <= v < 4 -> v = Z.b2z (Z.testbit v 0) + 2 * Z.b2z (Z.testbit v 1).
Proof. intros v B. assert (v = 0 \/ v = 1 \/ v = 2 \/ v = 3) as [-> | [-> | [-> | ->]]] by lia; reflexivity. Qed.
Lemma low_bits : forall v i, i = 0 \/ i = 1 -> Z.testbit (Z.land v 3) i = Z.testbit v i.
Proof. intros v i [-> | ->]; rewrite Z.land_spec; [change (Z.testbit 3 0) with true | change (Z.testbit 3 1) with true]; apply andb_true_r. Qed.
Lemma low_range : forall v, 0 <= Z.land v 3 < 4.
Proof. intros v. change 3 with (Z.ones 2). rewrite Z.land_ones by lia. apply Z.mod_pos_bound. lia. Qed.
Lemma u32_bit : forall v i, i = 0 \/ i = 1 -> Z.testbit (u32 v) i = Z.testbit v i.
Proof. intros v i H. unfold u32. apply Z.mod_pow2_bits_low. lia. Qed.
Lemma not32_bit : forall v i, i = 0 \/ i = 1 -> Z.testbit (not32 v) i = negb (Z.testbit v i).
Proof.
  intros v i H. unfold not32. rewrite Z.lxor_spec, (u32_bit v i H). change (2 ^ 32 - 1) with (Z.ones 32). rewrite Z.ones_spec_low by lia.
  apply xorb_true_r.
Qed.
Lemma not64_bit : forall v i, i = 0 \/ i = 1 -> Z.testbit (not64 v) i = negb (Z.testbit v i).
Proof.
  intros v i H. unfold not64. rewrite Z.lxor_spec, Z.mod_pow2_bits_low by lia. change (2 ^ 64 - 1) with (Z.ones 64). rewrite Z.ones_spec_low by lia.
  apply xorb_true_r.
Qed.
Lemma small_32 : forall m, 0 <= m < 4 -> GetUint32 m = m.
Proof. intros m B. unfold GetUint32, u32. apply Z.mod_small. lia. Qed.
Lemma rest_zero : forall m, 0 <= m < 4 -> Z.land m (not32 write_mask) = 0.
Proof. intros m B. assert (m = 0 \/ m = 1 \/ m = 2 \/ m = 3) as [-> | [-> | [-> | ->]]] by lia; reflexivity. Qed.
Lemma write_low : forall m v, 0 <= m < 4 -> Write32 m v = Z.land (u32 v) 3 /\ Write64 m v = Z.land (u32 v) 3.
Proof.
  intros m v B. unfold Write32, Write64, SetMode, write_mask at 1 3. unfold GetUint64. rewrite (small_32 m B), (rest_zero m B), Z.lor_0_r. split; reflexivity.
Qed.
Lemma from_bits : forall v m o, (forall i, i = 0 \/ i = 1 -> Z.testbit v i = next_bit i m o) -> Z.land (u32 v) 3 = next_mode m o.
Proof.
  intros v m o H. rewrite (two_bits _ (low_range (u32 v))). unfold next_mode.
  rewrite !low_bits, !u32_bit, (H 0), (H 1) by auto. reflexivity.
Qed.
(** What the debugger may write: a mode. *)
Definition in_two_bits (o : mode_op) : Prop := match o with Debugger _ v => 0 <= v < 4 | _ => True end.
Lemma step_next : forall m o, 0 <= m < 4 -> op_ok o -> in_two_bits o -> mode_step m o = next_mode m o /\ 0 <= next_mode m o < 4.
Proof.
  intros m o B K T. assert (R : 0 <= next_mode m o < 4) by (unfold next_mode; destruct (next_bit 0 m o), (next_bit 1 m o); cbn; lia).
  split; [| exact R]. destruct o as [v | [] v | [] v | [] v | [] v]; cbn [mode_step].
  - unfold next_mode. cbn [next_bit]. apply two_bits. cbn in K. destruct K as [-> | [-> | ->]]; lia.
  - rewrite (proj2 (write_low m v B)). apply from_bits. intros i H. reflexivity.
  - rewrite (proj1 (write_low m v B)). apply from_bits. intros i H. reflexivity.
  - rewrite (proj2 (write_low m _ B)). apply from_bits. intros i H. apply Z.lor_spec.
  - rewrite (proj1 (write_low m _ B)). rewrite (small_32 m B). apply from_bits. intros i H. apply Z.lor_spec.
  - rewrite (proj2 (write_low m _ B)). apply from_bits. intros i H. cbn [next_bit]. unfold GetUint64. rewrite Z.land_spec, (not64_bit v i H). reflexivity.
  - rewrite (proj1 (write_low m _ B)). rewrite (small_32 m B). apply from_bits. intros i H. cbn [next_bit]. rewrite Z.land_spec, (not32_bit v i H). reflexivity.
  - unfold SetMode, next_mode. cbn [next_bit]. cbn in T. exact (two_bits v T).
  - unfold SetMode, next_mode. cbn [next_bit]. cbn in T. unfold u32. rewrite Z.mod_small by lia. exact (two_bits v T).
Qed.

(** After any history the mode is the one the accesses give, and every way of reading $mode shows it, if the debugger writes
    values of two bits only. *)
Theorem simmode_history_partial : forall l, Forall op_ok l -> Forall in_two_bits l ->
  let m := mode_after l in m = fold_left next_mode l 3 /\ 0 <= m < 4 /\ AsUint32 m = m /\ AsUint64 m = m /\ GetUint32 m = m /\ GetUint64 m = m.
Proof.
  intros l K T m. assert (G : forall s, 0 <= s < 4 -> fold_left mode_step l s = fold_left next_mode l s /\ 0 <= fold_left next_mode l s < 4).
  { clear m. revert T. induction K as [| o l Ko K IH]; intros T s B; [split; [reflexivity | exact B] |].
    inversion T as [| x y To Ty]. destruct (step_next s o B Ko To) as [E R]. cbn [fold_left]. rewrite E. exact (IH Ty _ R). }
  destruct (G 3 ltac:(lia)) as [E R]. assert (Em : m = fold_left next_mode l 3) by exact E. rewrite <- Em in R.
  split; [exact Em |]. split; [exact R |]. clear - R. unfold AsUint32, AsUint64, read_mask. rewrite (small_32 m R). unfold GetUint64.
  assert (m = 0 \/ m = 1 \/ m = 2 \/ m = 3) as [-> | [-> | [-> | ->]]] by lia; repeat split; reflexivity.
Qed.
Print Assumptions simmode_history_partial.
Example simmode_history_example : let l := [Hart 0; SetBits true 0xffff0001; Debugger true 3; ClearBits false 2; Write true 0x100000000] in
  Forall op_ok l /\ Forall in_two_bits l /\ map (fun n => mode_after (firstn n l)) (seq 0 6) = [3; 0; 1; 3; 1; 0].
Proof.
  cbv zeta. split; [| split].
  - repeat constructor; cbn; try lia; left; reflexivity.
  - repeat constructor; cbn; lia.
  - vm_compute. reflexivity.
Qed.

(** The debugger on RV64 makes every 64-bit number the mode; beyond two bits $mode then reads differently for the debugger and
    by AsUint64, and the mode is no mode of the manual. *)
Theorem simmode_debugger_refuted : forall l v, 4 <= v < 2 ^ 64 -> let m := mode_after (l ++ [Debugger true v]) in
  m = v /\ ~ legal_mode m /\ GetUint64 m = v /\ AsUint64 m <> GetUint64 m.
Proof.
  intros l v B m. assert (E : m = v) by (unfold m, mode_after; rewrite fold_left_app; reflexivity). rewrite E. split; [reflexivity |].
  split; [unfold legal_mode; lia |]. split; [reflexivity |]. unfold AsUint64, GetUint64, read_mask. pose proof (low_range v). lia.
Qed.
Print Assumptions simmode_debugger_refuted.
Example simmode_debugger_example : 4 <= 7 < 2 ^ 64 /\ AsUint64 (mode_after [Debugger true 7]) = 3.
Proof. split; [lia | reflexivity]. Qed.

(** The reserved mode 2 is accepted by each kind of access, from a legal mode. *)
Theorem simmode_reserved_refuted : forall wide, ~ legal_mode 2 /\ mode_after [Write wide 2] = 2 /\ mode_after [ClearBits wide 1] = 2 /\
  mode_after [Hart 0; SetBits wide 2] = 2 /\ mode_after [Debugger wide 2] = 2.
Proof. intros wide. split; [unfold legal_mode; lia |]. destruct wide; vm_compute; repeat split. Qed.
Print Assumptions simmode_reserved_refuted.
