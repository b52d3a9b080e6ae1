(** Property theorems C27, C60. *)
From Coq Require Import ZArith Bool List Lia.
From Verif Require Import Bits Memory AccessSpec AccessModel ZcmpSpec ZcmpModel ZcmpProofs.
Import ListNotations.
Local Open Scope Z_scope.

(** C27, the frame: space for the registers rounded up to 16 bytes. *)
Theorem frame_sizes : forall w rlist, w = 32 \/ w = 64 -> 4 <= rlist <= 15 ->
  stack_adj_base w rlist = frame_base w rlist.
Proof. exact stack_adj_spec. Qed.
Print Assumptions frame_sizes.
Theorem register_lists : forall rlist, 4 <= rlist <= 15 -> rlist_operands rlist = rlist_regs rlist.
Proof. exact rlist_operands_spec. Qed.
Print Assumptions register_lists.

(** C27, push: stack pointer, every register slot, everything else unchanged.  [room]: the
    slots lie in the address space and start below the physical limit. *)
Theorem push_correct : forall w max pc spimm rlist s,
  w = 32 \/ w = 64 -> 4 <= rlist <= 15 -> byte_mem (z_m s) -> room w max rlist (z_x s 2) ->
  let regs := rlist_regs rlist in let n := length regs in let sp := z_x s 2 in
  exists s', push w max pc (rlist_operands rlist) spimm rlist s = (s', None) /\
    z_x s' sp_reg = (sp - (frame_base w rlist + spimm)) mod 2 ^ w /\
    (forall r, r <> sp_reg -> z_x s' r = z_x s r) /\
    (forall j, (j < n)%nat -> load_le (z_m s') (slot w sp n j) (Z.to_nat (xbytes w)) = z_x s (nth j regs 0) mod 2 ^ w) /\
    (forall x, ~ sp - xbytes w * Z.of_nat n <= x < sp -> z_m s' x = z_m s x).
Proof. exact push_main. Qed.
Print Assumptions push_correct.

(** C27, round trip: whatever happens in between, if sp is back and the saved slots are
    intact, pop restores the listed registers and sp and touches nothing else.  Operand
    order of riscv_zcmp64 ([rlist], x2). *)
Theorem push_pop_restores : forall w max pc pc' g spimm rlist s s1 s2 t,
  w = 32 \/ w = 64 -> 4 <= rlist <= 15 -> byte_mem (z_m s) ->
  room w max rlist (z_x s 2) -> (forall r, 0 <= z_x s r < 2 ^ w) ->
  push w max pc (rlist_operands rlist) spimm rlist s = (s1, t) ->
  z_x s2 2 = z_x s1 2 -> byte_mem (z_m s2) ->
  (forall x, z_x s 2 - xbytes w * Z.of_nat (length (rlist_regs rlist)) <= x < z_x s 2 -> z_m s2 x = z_m s1 x) ->
  exists s3, pop w max pc' g (dests64 rlist) spimm rlist s2 = (s3, None) /\
    z_m s3 = z_m s2 /\ z_x s3 2 = z_x s 2 /\
    (forall r, In r (rlist_regs rlist) -> z_x s3 r = z_x s r) /\
    (forall r, ~ In r (rlist_regs rlist) -> r <> 2 -> z_x s3 r = z_x s2 r).
Proof. exact pop_after_push. Qed.
Print Assumptions push_pop_restores.

(** C27, popret/popretz: the same, and the jump goes to the saved return address.
    Missing from the full claim: bit 0 of the address is not cleared. *)
Theorem push_popret_partial : forall w max pc pc' g spimm rlist s s1 s2 t,
  w = 32 \/ w = 64 -> 4 <= rlist <= 15 -> byte_mem (z_m s) ->
  room w max rlist (z_x s 2) -> (forall r, 0 <= z_x s r < 2 ^ w) ->
  push w max pc (rlist_operands rlist) spimm rlist s = (s1, t) ->
  z_x s2 2 = z_x s1 2 -> byte_mem (z_m s2) ->
  (forall x, z_x s 2 - xbytes w * Z.of_nat (length (rlist_regs rlist)) <= x < z_x s 2 -> z_m s2 x = z_m s1 x) ->
  (exists s3, popret w max pc' g spimm rlist s2 = (s3, None, z_x s 1) /\ z_x s3 2 = z_x s 2 /\
    (forall r, In r (rlist_regs rlist) -> z_x s3 r = z_x s r)) /\
  (exists s3, popretz w max pc' g spimm rlist s2 = (s3, None, z_x s 1) /\ z_x s3 2 = z_x s 2 /\ z_x s3 10 = 0 /\
    (forall r, In r (rlist_regs rlist) -> z_x s3 r = z_x s r)).
Proof. exact popret_after_push. Qed.
Print Assumptions push_popret_partial.

(** Moves between a0/a1 and saved registers. *)
Theorem move_pairs : forall w x r1 r2, w = 32 \/ w = 64 -> 0 <= r1 < 8 -> 0 <= r2 < 8 ->
  (forall r, 0 <= x r < 2 ^ w) ->
  (let y := mv_two w (sreg_map r1) (sreg_map r2) 10 11 x in
   y 10 = x (sreg_map r1) /\ y 11 = x (sreg_map r2) /\ (forall r, r <> 10 -> r <> 11 -> y r = x r)) /\
  (r1 <> r2 ->
   let y := mv_two w 10 11 (sreg_map r1) (sreg_map r2) x in
   y (sreg_map r1) = x 10 /\ y (sreg_map r2) = x 11 /\
   (forall r, r <> sreg_map r1 -> r <> sreg_map r2 -> y r = x r)).
Proof. exact mv_two_main. Qed.
Print Assumptions move_pairs.

Lemma by_snd {A B} (p : A * B) b : snd p = b -> p = (fst p, b).
Proof. intros <-. apply surjective_pairing. Qed.
(** Witness state: register r holds 0x1000 + r, sp = 0x8000. *)
Definition ex_z : zst := {| z_x := fun r => if r =? 2 then 0x8000 else 0x1000 + Z.land r 31; z_m := fun _ => 0xee |}.
Definition ex_pushed w rlist spimm := fst (push w 0xffffff 0 (rlist_operands rlist) spimm rlist ex_z).
Lemma ex_z_range r : 0 <= z_x ex_z r < 2 ^ 32.
Proof.
  cbn [z_x ex_z]. destruct (r =? 2); [cbn; lia|]. change 31 with (Z.ones 5). rewrite Z.land_ones by lia.
  pose proof (Z.mod_pos_bound r (2 ^ 5)). change (2 ^ 5) with 32 in *. change (2 ^ 32) with 4294967296. lia.
Qed.
Example push_hypotheses : room 32 0xffffff 15 (z_x ex_z 2) /\ byte_mem (z_m ex_z) /\ (forall r, 0 <= z_x ex_z r < 2 ^ 32).
Proof. split; [vm_compute; repeat split; discriminate|]. split; [intros x; cbn; lia|exact ex_z_range]. Qed.
Example push_example :
  z_x (ex_pushed 32 15 16) 2 = 0x8000 - 80 /\ load_le (z_m (ex_pushed 32 15 16)) 0x7ffc 4 = 0x101b /\
  load_le (z_m (ex_pushed 32 15 16)) (0x8000 - 52) 4 = 0x1001 /\ z_m (ex_pushed 32 15 16) (0x8000 - 53) = 0xee /\
  z_x (fst (pop 32 0xffffff 0 0 (dests64 15) 16 15 (ex_pushed 32 15 16))) 27 = 0x101b.
Proof. vm_compute. repeat split. Qed.

(** C27 fails for the operand order of riscv_zcmp32 (x2, [rlist]), which rvm23 uses: pop
    after push leaves ra and sp wrong. *)
Theorem push_pop_rvm23_order_refuted : exists s s1 s2 rlist,
  room 32 0xffffff rlist (z_x s 2) /\ byte_mem (z_m s) /\
  push 32 0xffffff 0 (rlist_operands rlist) 0 rlist s = (s1, None) /\
  pop 32 0xffffff 4 0 (dests32 rlist) 0 rlist s1 = (s2, None) /\
  z_x s2 1 <> z_x s 1 /\ z_x s2 2 <> z_x s 2.
Proof.
  exists ex_z. eexists. eexists. exists 6. split; [vm_compute; repeat split; discriminate|].
  split; [intros x; cbn; lia|]. split; [apply by_snd; vm_compute; reflexivity|].
  split; [apply by_snd; vm_compute; reflexivity|]. split; vm_compute; discriminate.
Qed.
Print Assumptions push_pop_rvm23_order_refuted.
(** C27: a push whose store faults must leave sp alone; it does not. *)
Theorem push_fault_keeps_sp_refuted : exists w max pc rlist s s' t,
  push w max pc (rlist_operands rlist) 0 rlist s = (s', Some t) /\ z_x s' 2 <> z_x s 2.
Proof.
  exists 64, 0xfff, 0x100, 5, ex_z. eexists. eexists. split; [apply by_snd; vm_compute; reflexivity|]. vm_compute. discriminate.
Qed.
Print Assumptions push_fault_keeps_sp_refuted.
(** ... and a pop whose load faults must leave the registers alone; it fills them with
    whatever the buffer holds. *)
Theorem pop_fault_keeps_registers_refuted : exists w max pc rlist g s s' t,
  pop w max pc g (dests64 rlist) 0 rlist s = (s', Some t) /\ z_x s' 8 <> z_x s 8 /\ z_x s' 2 <> z_x s 2.
Proof.
  exists 64, 0xfff, 0x100, 5, 0, ex_z. eexists. eexists. split; [apply by_snd; vm_compute; reflexivity|].
  split; vm_compute; discriminate.
Qed.
Print Assumptions pop_fault_keeps_registers_refuted.
(** C27: RV32 addresses are modulo 2^32, but a list reaching below address 0 faults. *)
Theorem push_wraps_rv32_refuted : exists rlist s s' t, 0 <= z_x s 2 < 2 ^ 32 /\
  push 32 0x3fffffffff 0 (rlist_operands rlist) 0 rlist s = (s', Some t) /\ 2 ^ 32 <= t_tval t.
Proof.
  exists 6, {| z_x := fun r => if r =? 2 then 8 else r; z_m := fun _ => 0 |}. eexists. eexists.
  split; [cbn; lia|]. split; [apply by_snd; vm_compute; reflexivity|]. vm_compute. discriminate.
Qed.
Print Assumptions push_wraps_rv32_refuted.
(** C27: returning to an odd saved address does not clear bit 0. *)
Theorem popret_even_target_refuted : exists s s' t target,
  popret 64 0xffffff 0 0 0 4 s = (s', t, target) /\ t = None /\ Z.odd target = true.
Proof.
  exists {| z_x := fun r => if r =? 2 then 0x100 else 0; z_m := fun _ => 1 |}. eexists. eexists. eexists.
  split; [unfold popret, pop_helper, load_memory; vm_compute; reflexivity|]. split; reflexivity.
Qed.
Print Assumptions popret_even_target_refuted.

(** C60.  A table jump through a jvt value written by software goes to the address stored in
    entry [index] of the 64-byte aligned table. *)
Theorem table_jump_partial : forall w max pc g m v index, w = 32 \/ w = 64 -> 0 <= v < 2 ^ w -> byte_mem m ->
  let a := (v - v mod 64 + index * xbytes w) mod 2 ^ w in
  a <= max ->
  jt w max pc g (jvt_write w v) index m = (Some (load_le m a (Z.to_nat (xbytes w))), None).
Proof. exact jt_main. Qed.
Print Assumptions table_jump_partial.
Example table_jump_example :
  jt 32 0xffffff 0 0 (jvt_write 32 0x4013) 3 (fun x => if x =? 0x400d then 0x80 else 0) = (Some 0x8000, None).
Proof. vm_compute. reflexivity. Qed.
(** C60: the target keeps bit 0 of the entry; a faulting entry still jumps; and the link
    register is written although the jump raised an exception. *)
Theorem table_jump_even_refuted : exists m p, jt 64 0xffffff 0 0 (jvt_write 64 0x4000) 3 m = (Some p, None) /\ Z.odd p = true.
Proof. exists (fun _ => 1). eexists. split; [vm_compute; reflexivity|reflexivity]. Qed.
Print Assumptions table_jump_even_refuted.
Theorem table_jump_fault_refuted : exists max g m p t, jt 64 max 0 g (jvt_write 64 0x4000) 3 m = (p, Some t) /\ p = Some g.
Proof. exists 0xfff, 0x1234, (fun _ => 0). eexists. eexists. split; [vm_compute; reflexivity|reflexivity]. Qed.
Print Assumptions table_jump_fault_refuted.
Theorem table_call_fault_link_refuted : exists max m l p t, jalt 64 max 0x80 2 0 (jvt_write 64 0x4000) 40 m = (p, Some l, Some t) /\ l = 0x82.
Proof. exists 0xfff, (fun _ => 0). eexists. eexists. eexists. split; [vm_compute; reflexivity|reflexivity]. Qed.
Print Assumptions table_call_fault_link_refuted.
