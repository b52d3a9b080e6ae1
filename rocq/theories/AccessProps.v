(** Property theorems C18, C19, C22, C23, C59. *)
From Coq Require Import ZArith Bool List Lia.
From Verif Require Import Bits CsrSpec CsrModel CsrProofs Memory AccessSpec AccessModel AccessProofs.
Import ListNotations.
Local Open Scope Z_scope.

(** C18.  Any CSR file, instruction, mode, CSR number and operand.  Without permission
    nothing is read or written and the illegal-instruction exception is raised; with
    permission the old value is read and the ISA's update is applied. *)
Theorem csr_instruction_semantics : forall St (f : csr_file St) i priv pc n v tvm st,
  let r := csr_exec f i priv pc n v tvm st in
  if permitted priv n tvm then
    x_trap r = None /\
    match cf_read f st n with
    | None => x_st r = st /\ x_rd r = None
    | Some old => x_rd r = (if reads_csr i then Some old else None) /\
                  x_st r = match csr_effect i v with Some o => cf_apply f st n o | None => st end
    end
  else x_st r = st /\ x_rd r = None /\ x_trap r = Some (illegal pc).
Proof. exact csr_instr_main. Qed.
Print Assumptions csr_instruction_semantics.

(** C18: a mode below bits 9:8 of the number is never permitted. *)
Theorem csr_low_privilege_denied : forall priv n tvm,
  priv < csr_min_priv n -> permitted priv n tvm = false.
Proof. exact permitted_denied. Qed.
Print Assumptions csr_low_privilege_denied.

(** C18 end to end: any sequence of CSR instructions at any privileges over plain
    registers.  Every CSR ends up with the bits that the permitted accesses to it produce. *)
Theorem csr_program_history : forall aw l st n c, st n = Some c -> csr_wf c -> cs_w c <= aw ->
  exists c', csr_run (simple_file aw) l st n = Some c' /\
  forall i, 0 <= i ->
    Z.testbit (as_uint aw c') i =
    (i <? cs_w c) && Z.testbit (cs_rmask c) i &&
    (if Z.testbit (cs_wmask c) i then bit_run i (Z.testbit (cs_value c) i) (effects_on n l)
     else Z.testbit (cs_value c) i).
Proof. exact csr_history_prog. Qed.
Print Assumptions csr_program_history.

(** C18: no sequence of CSR instructions creates a CSR. *)
Theorem csr_program_creates_nothing : forall aw l st n,
  st n = None -> csr_run (simple_file aw) l st n = None.
Proof. exact csr_unknown_stays. Qed.
Print Assumptions csr_program_creates_nothing.

Definition ex_reg := {| cs_w := 64; cs_value := 5; cs_rmask := 2 ^ 64 - 1; cs_wmask := 2 ^ 64 - 1 |}.
Definition ex_file (n : Z) : option simple_csr := if (n =? 0x140) || (n =? 0xc00) then Some ex_reg else None.
(** Supervisor CSR 0x140: set in S mode, attempted write in U mode, clear in M mode. *)
Definition ex_prog : list csr_req :=
  [ {| q_instr := Csrrs; q_priv := 1; q_pc := 0; q_num := 0x140; q_val := 0x18; q_tvm := false |};
    {| q_instr := Csrrw; q_priv := 0; q_pc := 4; q_num := 0x140; q_val := 0xff00; q_tvm := false |};
    {| q_instr := Csrrc; q_priv := 3; q_pc := 8; q_num := 0x140; q_val := 0x9; q_tvm := false |} ].
Example csr_program_example :
  match csr_run (simple_file 64) ex_prog ex_file 0x140 with Some c => as_uint 64 c | None => 0 end = 0x14
  /\ csr_wf ex_reg /\ cs_w ex_reg <= 64 /\ ex_file 0x140 = Some ex_reg.
Proof. repeat split; try (vm_compute; reflexivity); try (unfold csr_wf, inw, ex_reg; cbn; lia); vm_compute; discriminate. Qed.
Example csr_denied_example : permitted 0 0x140 false = false /\ permitted 1 0x140 false = true /\
  permitted 1 0x180 true = false /\ permitted 3 0x180 true = true.
Proof. repeat split. Qed.

(** C59.  Required: an access to a CSR that does not exist, or a write to a number whose
    top two bits are both 1, raises the illegal-instruction exception.  False: the first
    only logs a message, the second reaches the register. *)
Theorem csr_nonexistent_traps_refuted : exists st n, st n = None /\ permitted 3 n false = true /\
  forall i pc v, x_trap (csr_exec (simple_file 64) i 3 pc n v false st) = None.
Proof.
  exists ex_file, 0x7c0. split; [reflexivity|]. split; [reflexivity|]. intros i pc v. destruct i; reflexivity.
Qed.
Print Assumptions csr_nonexistent_traps_refuted.
Theorem csr_read_only_traps_refuted : exists st n v, csr_read_only n = true /\ permitted 3 n false = true /\
  let r := csr_exec (simple_file 64) Csrrw 3 0x80 n v false st in
  x_trap r = None /\ cf_read (simple_file 64) st n = Some 5 /\ cf_read (simple_file 64) (x_st r) n = Some v /\ v <> 5.
Proof. exists ex_file, 0xc00, 77. vm_compute. repeat split; congruence. Qed.
Print Assumptions csr_read_only_traps_refuted.
(** C59, what does hold: an access to a missing CSR changes neither CSRs nor rd. *)
Theorem csr_nonexistent_no_effect_partial : forall St (f : csr_file St) i priv pc n v tvm st,
  cf_read f st n = None ->
  x_st (csr_exec f i priv pc n v tvm st) = st /\ x_rd (csr_exec f i priv pc n v tvm st) = None.
Proof.
  intros St f i priv pc n v tvm st E. pose proof (csr_instr_main St f i priv pc n v tvm st) as M. cbv zeta in M.
  rewrite E in M. destruct (permitted priv n tvm); tauto.
Qed.
Print Assumptions csr_nonexistent_no_effect_partial.

(** C19, scalar: above the limit a load or store faults with the address (and, a fault being
    the only outcome, no memory is read or changed); otherwise the result depends on, or the
    change is confined to, exactly the addressed bytes. *)
Theorem limit_scalar_access : forall max m pc a n v,
  if max <? a then
    load_memory max m pc a n = inr (load_fault a pc) /\ store_memory max m pc a n v = inr (store_fault a pc)
  else
    (exists r, load_memory max m pc a n = inl r /\
       forall m', (forall x, touches a n x -> m' x = m x) -> load_memory max m' pc a n = inl r) /\
    (exists m', store_memory max m pc a n v = inl m' /\ forall x, ~ touches a n x -> m' x = m x).
Proof. exact limit_scalar. Qed.
Print Assumptions limit_scalar_access.

(** C19, vector load: faults with the first address above the limit, or reads exactly the
    active elements. *)
Theorem limit_vector_load_access : forall max m pc addrs mask n,
  (exists a, first_above max addrs a /\ load_vector max m pc addrs mask n = inr (load_fault a pc)) \/
  (Forall (fun x => x <= max) addrs /\
   load_vector max m pc addrs mask n =
   inl (map (fun p : Z * bool => if snd p then Some (load_le m (fst p) n) else None) (combine addrs mask))).
Proof. exact limit_vector_load. Qed.
Print Assumptions limit_vector_load_access.

(** C19, vector store: every byte is the one of the last active element covering it. *)
Theorem limit_vector_store_access : forall max m pc addrs mask n vals,
  (exists a, first_above max addrs a /\ store_vector max m pc addrs mask n vals = inr (store_fault a pc)) \/
  (Forall (fun x => x <= max) addrs /\
   exists m', store_vector max m pc addrs mask n vals = inl m' /\
   forall x, m' x = byte_after n m (combine (combine addrs mask) vals) x).
Proof. exact limit_vector_store. Qed.
Print Assumptions limit_vector_store_access.

(** C19: the limit set is the one asked for, capped at the architecture's physical space. *)
Theorem limit_setting : forall xlen v,
  set_max xlen v <= v /\ set_max xlen v <= (if xlen =? 32 then 2 ^ 38 - 1 else 2 ^ 56 - 1) /\
  (v <= (if xlen =? 32 then 2 ^ 38 - 1 else 2 ^ 56 - 1) -> set_max xlen v = v).
Proof. exact set_max_bound. Qed.
Print Assumptions limit_setting.
Example limit_examples :
  load_memory 0xfff (fun x => x mod 256) 0x10 0x1000 4 = inr (load_fault 0x1000 0x10) /\
  load_memory 0xfff (fun x => x mod 256) 0x10 0xffc 4 = inl 0xfffefdfc /\
  load_vector 0xfff (fun x => x mod 256) 0x10 [0x10; 0x2000; 0x3000] [true; true; true] 2 = inr (load_fault 0x2000 0x10) /\
  load_vector 0xfff (fun x => x mod 256) 0x10 [0x10; 0x20] [true; false] 2 = inl [Some 0x1110; None] /\
  set_max 32 (2 ^ 40) = 2 ^ 38 - 1.
Proof. repeat split. Qed.

(** A stronger reading of C19 -- no byte above the limit is ever touched -- is false: only the
    first byte of an access is checked. *)
Theorem limit_every_byte_refuted : exists max m m' pc a n x,
  max < x /\ touches a n x /\ (forall y, y <> x -> m' y = m y) /\
  load_memory max m pc a n <> load_memory max m' pc a n /\
  exists r, load_memory max m pc a n = inl r.
Proof.
  exists 0xfff, (fun _ => 0), (fun y => if y =? 0x1000 then 1 else 0), 0, 0xffe, 4%nat, 0x1000.
  repeat split; try (cbn; lia); [|vm_compute; discriminate|exists 0; reflexivity].
  intros y Hy. destruct (Z.eqb_spec y 0x1000); [contradiction|reflexivity].
Qed.
Print Assumptions limit_every_byte_refuted.
(** ... and an inactive element above the limit faults although it would not be accessed. *)
Theorem limit_inactive_element_refuted : exists max m pc addrs mask n a,
  In (a, false) (combine addrs mask) /\ (forall b, In (b, true) (combine addrs mask) -> b <= max) /\
  load_vector max m pc addrs mask n = inr (load_fault a pc).
Proof.
  exists 0xfff, (fun _ => 0), 0, [0x10; 0x2000], [true; false], 4%nat, 0x2000.
  repeat split; [cbn; tauto|]. intros b [H|[H|[]]]; injection H; intros; lia.
Qed.
Print Assumptions limit_inactive_element_refuted.

(** C22, jal: target and link for every pc, offset, instruction size. *)
Theorem jal_correct : forall w misa pc size offset, w = 32 \/ w = 64 ->
  jal w misa pc size offset =
  jump_spec (jump_has_c misa) (even_part ((pc + offset) mod 2 ^ w)) ((pc + size) mod 2 ^ w) pc.
Proof. exact jal_main. Qed.
Print Assumptions jal_correct.
Theorem jalr_correct : forall w misa pc size base offset, w = 32 \/ w = 64 ->
  jalr w misa pc size base offset =
  jump_spec (jump_has_c misa) (even_part ((base + offset) mod 2 ^ w)) ((pc + size) mod 2 ^ w) pc.
Proof. exact jalr_main. Qed.
Print Assumptions jalr_correct.
(** C22, branches: taken exactly when the comparison holds, target pc + offset; a
    misaligned target does not transfer control.  Missing from the full claim: the exception
    reports the address of the branch, not the target. *)
Theorem branch_correct_partial : forall w v c pc a b offset,
  branch_exec w (Some v) c pc a b offset = Some
   (if taken w c a b then
      let target := (pc + offset) mod 2 ^ w in
      if misaligned (negb (Z.land v 4 =? 0)) target
      then {| c_pc := None; c_link := None;
              c_trap := Some {| t_tval := pc; t_code := cause_misaligned_fetch; t_epc := pc |} |}
      else {| c_pc := Some target; c_link := None; c_trap := None |}
    else fall_through).
Proof. exact branch_main. Qed.
Print Assumptions branch_correct_partial.
Theorem branch_trap_value_refuted : exists w v c pc a b offset,
  taken w c a b = true /\ misaligned false ((pc + offset) mod 2 ^ w) = true /\ Z.land v 4 = 0 /\
  forall r t, branch_exec w (Some v) c pc a b offset = Some r -> c_trap r = Some t -> t_tval t <> (pc + offset) mod 2 ^ w.
Proof.
  exists 64, 0x100, Beq, 0x1000, 1, 1, 6. repeat split. intros r t E T.
  vm_compute in E. injection E as <-. vm_compute in T. injection T as <-. vm_compute. discriminate.
Qed.
Print Assumptions branch_trap_value_refuted.
(** C22: on a CSR set without misa a taken branch aborts the simulator. *)
Theorem branch_without_misa_refuted : exists w c pc a b offset,
  taken w c a b = true /\ branch_exec w None c pc a b offset = None.
Proof. exists 32, Bltu, 0, 1, 2, 8. split; reflexivity. Qed.
Print Assumptions branch_without_misa_refuted.
Example jump_examples :
  jal 32 (Some 4) 0xfffffff0 4 0x21 = {| c_pc := Some 0x10; c_link := Some 0xfffffff4; c_trap := None |} /\
  jalr 64 (Some 0) 0x1000 4 0x2001 2 =
    {| c_pc := None; c_link := None; c_trap := Some {| t_tval := 0x2002; t_code := 0; t_epc := 0x1000 |} |} /\
  branch_exec 32 (Some 4) Blt 0x1000 0xffffffff 1 (2 ^ 32 - 8) =
    Some {| c_pc := Some 0xff8; c_link := None; c_trap := None |} /\
  branch_exec 32 (Some 4) Bltu 0x1000 0xffffffff 1 (2 ^ 32 - 8) = Some fall_through.
Proof. repeat split. Qed.

(** C23, loads: value of every bit of the destination, any memory, address, kind. *)
Theorem load_correct : forall w max m k pc base offset, w = 32 \/ w = 64 -> load_exists w k -> byte_mem m ->
  let a := (base + offset) mod 2 ^ w in
  (max < a -> load_exec w max m k pc base offset = inr (load_fault a pc)) /\
  (a <= max -> exists r, load_exec w max m k pc base offset = inl r /\ loaded w k m a r).
Proof. exact load_main. Qed.
Print Assumptions load_correct.
(** C23, stores: the addressed bytes and no others. *)
Theorem store_correct : forall w max m k pc base offset v, w = 32 \/ w = 64 -> store_exists w k ->
  let a := (base + offset) mod 2 ^ w in
  (max < a -> store_exec w max m k pc base offset v = inr (store_fault a pc)) /\
  (a <= max -> exists m', store_exec w max m k pc base offset v = inl m' /\
     (forall x, touches a (store_bytes k) x -> m' x = v / 2 ^ (8 * (x - a)) mod 256) /\
     (forall x, ~ touches a (store_bytes k) x -> m' x = m x)).
Proof. exact store_main. Qed.
Print Assumptions store_correct.
(** C23, round trip. *)
Theorem store_then_load : forall w max m ks kl pc pc' base offset base' offset' v, w = 32 \/ w = 64 ->
  store_exists w ks -> load_exists w kl -> store_bytes ks = load_bytes kl ->
  (base + offset) mod 2 ^ w = (base' + offset') mod 2 ^ w -> (base + offset) mod 2 ^ w <= max ->
  exists m', store_exec w max m ks pc base offset v = inl m' /\
             load_exec w max m' kl pc' base' offset' = inl (extended w kl v).
Proof. exact round_trip_main. Qed.
Print Assumptions store_then_load.
Definition ex_store := match store_exec 64 0xffffff (fun _ => 0xaa) Sh 0 0x1000 (2 ^ 64 - 2) 0x12348765 with inl m => m | inr _ => fun _ => 0 end.
Example load_store_examples :
  load_exec 64 0xffffff ex_store Lh 4 0xffe 0 = inl (2 ^ 64 - 0x789b) /\
  load_exec 64 0xffffff ex_store Lhu 4 0xffe 0 = inl 0x8765 /\
  load_exec 64 0xffffff ex_store Lw 4 0xffe 0 = inl (2 ^ 64 - 0x5555789b) /\
  load_exec 32 0xffffff ex_store Lb 4 0xfff 0 = inl (2 ^ 32 - 0x79) /\
  byte_mem (fun _ => 0xaa) /\ load_exists 32 Lhu /\ store_exists 64 Sh.
Proof. split; [reflexivity|]. split; [reflexivity|]. split; [reflexivity|]. split; [reflexivity|]. split; [intros x; lia|].
  split; [right; split; discriminate|left; reflexivity]. Qed.
