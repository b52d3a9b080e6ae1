(** Property theorems C01, C02, C03. *)
From Coq Require Import ZArith Bool List String Lia.
From Verif Require Import Bits CsrSpec CsrModel CsrProofs.
Import ListNotations.
Local Open Scope Z_scope.

(** C01.  A register of width [w] accessed at full width (or wider): after any
    history of write/set/clear calls, every readable bit is what a flip-flop fed by the
    history holds if the bit is writable, and its initial value otherwise; bits
    outside the read mask and above the register read as zero. *)
Theorem csr_read_after_history : forall aw c ops, csr_wf c -> cs_w c <= aw ->
  forall i, 0 <= i ->
    Z.testbit (as_uint aw (fold_left (csr_step aw) ops c)) i =
    (i <? cs_w c) && Z.testbit (cs_rmask c) i &&
    (if Z.testbit (cs_wmask c) i then bit_run i (Z.testbit (cs_value c) i) ops
     else Z.testbit (cs_value c) i).
Proof. exact csr_history_main. Qed.
Print Assumptions csr_read_after_history.

(** C01, raw contents (GetUint): same law without the read mask, and the contents
    always fit the register. *)
Theorem csr_contents_after_history : forall aw c ops, csr_wf c -> cs_w c <= aw ->
  (forall i, 0 <= i < cs_w c ->
     Z.testbit (cs_value (fold_left (csr_step aw) ops c)) i =
     (if Z.testbit (cs_wmask c) i then bit_run i (Z.testbit (cs_value c) i) ops
      else Z.testbit (cs_value c) i)) /\
  inw (cs_w c) (cs_value (fold_left (csr_step aw) ops c)).
Proof. exact csr_stored_bits. Qed.
Print Assumptions csr_contents_after_history.

(** C01, instruction path: writes through a destination data buffer (whose size is
    the register size) are the full-width calls above. *)
Theorem csr_instruction_path : forall c ops, csr_wf c ->
  fold_left (csr_db_step (csr_size c)) ops c = fold_left (csr_step (cs_w c)) ops c.
Proof. exact csr_db_history. Qed.
Print Assumptions csr_instruction_path.

(** Non-vacuity: misa-like register, a mixed history. *)
Definition ex_csr : simple_csr :=
  {| cs_w := 64; cs_value := 0xf0; cs_rmask := 0xffff; cs_wmask := 0x0ff |}.
Example csr_wf_example : csr_wf ex_csr /\ cs_w ex_csr <= 64.
Proof. unfold csr_wf, inw, ex_csr; cbn; lia. Qed.
Example csr_history_example :
  as_uint 64 (fold_left (csr_step 64) [CsrWrite 0xa0a; CsrSetBits 0x1f0; CsrClearBits 0x88] ex_csr) = 0x72.
Proof. vm_compute. reflexivity. Qed.

(** C01 does not extend to a 32-bit access of a 64-bit register: a bit that no
    mask makes writable is destroyed (riscv_csr.h:450-453 uses GetUint32). *)
Theorem csr_narrow_access_refuted : exists c v i, csr_wf c /\ cs_w c = 64 /\ 0 <= i < 64 /\
  Z.testbit (cs_wmask c) i = false /\ Z.testbit (cs_rmask c) i = true /\
  Z.testbit (as_uint 64 (csr_step 32 c (CsrWrite v))) i <> Z.testbit (as_uint 64 c) i.
Proof.
  exists {| cs_w := 64; cs_value := 2^40; cs_rmask := 2^64-1; cs_wmask := 0xff |}, 0, 40.
  unfold csr_wf, inw; cbn [cs_w cs_value cs_rmask cs_wmask].
  repeat split; try lia; try (right; reflexivity); vm_compute; congruence.
Qed.
Print Assumptions csr_narrow_access_refuted.

(** C03.  For every interleaving of accesses through a register and through its shadow:
    each bit of the register follows exactly the operations whose whole path of write
    masks selects it, and the shadow reads the register through both read masks. *)
Theorem shadow_history : forall aw s ops, shadow_wf s -> cs_w (sh_base s) <= aw ->
  let s' := fold_left (view_step aw) ops s in
  (forall i, 0 <= i < cs_w (sh_base s) ->
     Z.testbit (cs_value (sh_base s')) i =
     bit_run2 (cs_wmask (sh_base s)) (sh_wmask s) i (Z.testbit (cs_value (sh_base s)) i) ops) /\
  (forall i, 0 <= i ->
     Z.testbit (shadow_as_uint aw s') i =
     (i <? cs_w (sh_base s)) && Z.testbit (sh_rmask s) i && Z.testbit (cs_rmask (sh_base s)) i &&
     bit_run2 (cs_wmask (sh_base s)) (sh_wmask s) i (Z.testbit (cs_value (sh_base s)) i) ops).
Proof. exact shadow_history_main. Qed.
Print Assumptions shadow_history.

(** C03, read-only shadow: with an empty write mask the register object is untouched
    by any access, whatever the access width. *)
Theorem shadow_empty_mask_noop : forall aw s o,
  sh_wmask s = 0 -> sh_base (shadow_step aw s o) = sh_base s.
Proof. exact shadow_readonly. Qed.
Print Assumptions shadow_empty_mask_noop.

Definition ex_shadow : shadow_csr := {| sh_base := ex_csr; sh_rmask := 0xff0; sh_wmask := 0xf3c |}.
Example shadow_example : shadow_wf ex_shadow /\
  shadow_as_uint 64 (fold_left (view_step 64)
    [(ViaShadow, CsrWrite 0xfff); (ViaBase, CsrClearBits 0x10); (ViaShadow, CsrSetBits 0x03)] ex_shadow) = 0xe0.
Proof. split; [unfold shadow_wf, csr_wf, inw; cbn; lia|vm_compute; reflexivity]. Qed.

(** C02.  Any history of table operations answers exactly as a plain collection of
    registers does (and erasing a missing entry, undefined behaviour, never happens). *)
Theorem csr_table_refines : forall ops,
  snd (run csr_set_step csr_set_empty ops) = snd (run tbl_spec [] ops).
Proof. exact (fun ops => proj2 (tbl_run_refines csr_set_empty [] ops tbl_rel_empty)). Qed.
Print Assumptions csr_table_refines.

Theorem csr_table_no_undefined : forall ops,
  ~ In TUndefined (snd (run csr_set_step csr_set_empty ops)).
Proof. exact tbl_no_ub. Qed.
Print Assumptions csr_table_no_undefined.

(** C02, agreement: after any history, the register found under a number carries that
    number, and is found under a name iff it is its own name. *)
Theorem csr_table_name_index_agree : forall ops i n c,
  let s := fst (run csr_set_step csr_set_empty ops) in
  snd (csr_set_step s (TblGetIndex i)) = TFound c ->
  co_index c = i /\ (snd (csr_set_step s (TblGetName n)) = TFound c <-> co_name c = n).
Proof.
  exact (fun ops i n c H =>
    let H' : find_index i (cm_index (fst (run csr_set_step csr_set_empty ops))) = Some c :=
      tfound_inv _ _ H in
    conj (proj1 (tbl_names_agree ops i n c H'))
         (iff_trans (tfound_iff _ _) (proj2 (tbl_names_agree ops i n c H')))).
Qed.
Print Assumptions csr_table_name_index_agree.

Example csr_table_example :
  let a := {| co_name := "mstatus"; co_index := 0x300; co_id := 1 |} in
  let b := {| co_name := "mie"; co_index := 0x304; co_id := 2 |} in
  let b' := {| co_name := "mie"; co_index := 0x305; co_id := 3 |} in
  snd (run csr_set_step csr_set_empty
    [TblAdd (Some a); TblAdd (Some b); TblAdd (Some b'); TblGetIndex 0x304; TblRemove 0x304;
     TblAdd (Some b'); TblGetName "mie"; TblGetIndex 0x304])
  = [TOk; TOk; TExists; TFound b; TOk; TOk; TFound b'; TNotFound].
Proof. vm_compute. reflexivity. Qed.
