(** Theorems C73-C75: an instruction word does to the registers, the memory and the pc what the manual says; so does a
    program run from memory; and what becomes of programs that modify themselves. *)
From Coq Require Import ZArith List String Bool Lia.
From Verif Require Import Bits FmtSpec FmtModel FmtProofs DecSpec DecManual DecModel DecCheck DecTables IntSpec Memory AccessSpec AccessModel
  StepSpec StepModel StepCheck StepProofs StepTables StepUnique StepEval.
Import ListNotations.
Local Open Scope string_scope.
Local Open Scope Z_scope.

Lemma has_c_bit misa : negb (Z.land misa 4 =? 0) = Z.testbit misa 2.
Proof.
  destruct (Z.testbit misa 2) eqn:T.
  - apply negb_true_iff, Z.eqb_neq. intros E. assert (X : Z.testbit (Z.land misa 4) 2 = true) by (rewrite Z.land_spec, T; reflexivity).
    rewrite E in X. discriminate X.
  - apply negb_false_iff, Z.eqb_eq. apply Z.bits_inj'. intros n Hn. rewrite Z.land_spec, Z.bits_0.
    destruct (Z.eq_dec n 2) as [-> | N]; [rewrite T; reflexivity |]. change 4 with (2 ^ 2). rewrite Z.pow2_bits_false by lia. apply andb_false_r.
Qed.

(** * C73: one instruction *)
(** For each of the eight simulators, every instruction word of the RV32/RV64 I, M, C, Zba, Zbb, Zbc, Zbs instructions and
    the loads and stores of F and D, in every state, except for the words, instructions and states listed in [regular]:
    some opcode is decoded, and whichever it is the outcome is the one [executes] describes. *)
Theorem step_correct_partial : forall I misa max h iw m i, In I simulators ->
  let S := im_sim I in let xlen := s_xlen S in let has_c := Z.testbit misa 2 in
  hart_ok xlen h -> 0 <= iw < 2 ^ 32 -> regular xlen has_c (im_32 I) (im_16 I) (im_broken I) h iw m i ->
  (exists o, sim_decodes S iw o) /\
  forall o, sim_decodes S iw o -> exists out, sim_exec S (Some misa) max h iw o = Some out /\
    executes xlen has_c max (size_of iw) i (word_of iw) h out /\ forall h', out = Done h' -> hart_ok xlen h'.
Proof.
  cbv zeta. intros I misa max h iw m i HI OK W ((e & He & Me & <-) & Hi & NM & NB & ND). rewrite <- has_c_bit in *.
  destruct (word_good I iw HI W misa max h e i OK He Me Hi NM NB ND) as [A B]. split; [exact A |].
  intros o Ho. destruct (B o Ho) as (out & X & Y & Z & _). exists out. auto.
Qed.
Print Assumptions step_correct_partial.
(** A word that is no instruction, nor among the words the decoder wrongly accepts, is an illegal instruction: the
    exception is raised and nothing else changes. *)
Theorem step_illegal_partial : forall I misa max h iw out, In I simulators -> 0 <= iw < 2 ^ 32 ->
  unknown (im_32 I) (im_16 I) iw ->
  sim_word (im_sim I) (s_xlen (im_sim I)) misa max h iw out -> raises h (illegal (hpc h)) out.
Proof.
  intros I misa max h iw out HI W [NM NE]. pose proof (word_illegal I iw HI W NM NE) as N.
  intros [(o & A & _) | [_ ->]]; [exfalso; exact (N o A) |]. exists h. split; [reflexivity | apply unchanged_refl].
Qed.
Print Assumptions step_illegal_partial.
(** The specification leaves no freedom: the outcome of an instruction is unique. *)
Theorem step_spec_unique : forall xlen has_c limit size m i w h o o', xlen = 32 \/ xlen = 64 -> semantics xlen m = Some i ->
  executes xlen has_c limit size i w h o -> executes xlen has_c limit size i w h o' -> same_outcome o o'.
Proof.
  intros xlen has_c limit size m i w h o o' XL S. exact (executes_same _ _ _ _ _ _ _ _ _ XL (semantics_ok _ _ _ S)).
Qed.
Print Assumptions step_spec_unique.

Definition rv32g := impl sim_RV32G s_RiscV32G s_RiscV32C ["c.flw"; "c.flwsp"].
Definition rv64g := impl sim_RV64G s_RiscV64G s_RiscV64C ["c.fld"].
Lemma rv32g_in : In rv32g simulators. Proof. left. reflexivity. Qed.
Lemma rv64g_in : In rv64g simulators. Proof. right. left. reflexivity. Qed.
Definition all64 : Z := 2 ^ 64 - 1.
(** mul x3, x1, x2 on RV64G. *)
Example step_correct_nonvacuous :
  let h := hart_at 0x1000 [7; 35] 3 [0x022081b3] in
  hart_ok 64 h /\ regular 64 true s_RiscV64G s_RiscV64C ["c.fld"] h 0x022081b3 "mul" (IOp Mul (Rd o_rd) (Reg o_rs1) (Reg o_rs2)) /\
  exists o out, sim_decodes sim_RV64G 0x022081b3 o /\ sim_exec sim_RV64G (Some 4) all64 h 0x022081b3 o = Some (Done out) /\
    hx out 3 = 245 /\ hpc out = 0x1004.
Proof.
  cbv zeta. split; [apply hart_at_ok; [discriminate | reflexivity | split; [discriminate | reflexivity] | reflexivity] |].
  split; [apply regular_ok; try (vm_compute; reflexivity); intros X; exact X |].
  set (h := hart_at _ _ _ _). set (out := result sim_RV64G (Some 4) all64 h 0x022081b3). exists "mul", (state_of out).
  destruct (result_ok sim_RV64G (Some 4) all64 h 0x022081b3 "mul") as [A B]; [vm_compute; reflexivity |].
  split; [exact A |]. split; [rewrite B; f_equal; apply done_ok; vm_compute; reflexivity |]. split; vm_compute; reflexivity.
Qed.
(** The all-ones word is illegal. *)
Example step_illegal_nonvacuous : unknown s_RiscV64G s_RiscV64C 0xffffffff /\
  exists out, sim_word sim_RV64G 64 (Some 4) all64 (hart_at 0x1000 [] 3 [0xffffffff]) 0xffffffff out.
Proof.
  assert (U : unknown s_RiscV64G s_RiscV64C 0xffffffff) by (apply unknown_ok; vm_compute; reflexivity).
  split; [exact U |]. eexists. right. split; [| reflexivity].
  apply (word_illegal rv64g 0xffffffff rv64g_in); [lia | apply U | apply U].
Qed.

(** What goes wrong with the instructions excluded above as broken or deviating (see also cpopw_refuted, clmulr_rv32_refuted in
    IntProps.v and the branch refutation in AccessProps.v): the word is the instruction, it is decoded, and what is executed
    has another outcome than the manual's. *)
Definition wrong (I : implementation) (max : Z) (h : hart) (iw : Z) (m : string) : Prop :=
  In I simulators /\ hart_ok (s_xlen (im_sim I)) h /\ word_is (spec_of (im_32 I) (im_16 I) iw) m (word_of iw) = true /\
  exists i o out, semantics (s_xlen (im_sim I)) m = Some i /\ sim_decodes (im_sim I) iw o /\
    sim_exec (im_sim I) (Some 4) max h iw o = Some out /\
    ~ executes (s_xlen (im_sim I)) true max (size_of iw) i (word_of iw) h out.
(** To show it: the opcode and the instruction, and a contradiction. *)
Lemma wrong_by I max h iw m i o : In I simulators -> hart_ok (s_xlen (im_sim I)) h ->
  word_is (spec_of (im_32 I) (im_16 I) iw) m (word_of iw) && has_result (im_sim I) (Some 4) max h iw o = true ->
  semantics (s_xlen (im_sim I)) m = Some i ->
  ~ executes (s_xlen (im_sim I)) true max (size_of iw) i (word_of iw) h (result (im_sim I) (Some 4) max h iw) -> wrong I max h iw m.
Proof.
  intros HI OK B S N. apply andb_true_iff in B. destruct B as [W R]. destruct (result_ok _ _ _ _ _ _ R) as [A X].
  do 3 (split; [assumption |]). eauto 10.
Qed.
Lemma no_limit64 a : (all64 <? a mod 2 ^ 64) = false.
Proof. apply Z.ltb_ge. pose proof (Z.mod_pos_bound a (2 ^ 64) eq_refl). unfold all64. lia. Qed.
Lemma no_limit32 a : (2 ^ 32 - 1 <? a mod 2 ^ 32) = false.
Proof. apply Z.ltb_ge. pose proof (Z.mod_pos_bound a (2 ^ 32) eq_refl). lia. Qed.
Lemma hart0_ok xlen regs fs ws : xlen = 32 \/ xlen = 64 -> forallb (fun v => (0 <=? v) && (v <? 2 ^ xlen)) regs = true ->
  hart_ok xlen (hart_at 0x1000 regs fs ws).
Proof. intros X R. apply hart_at_ok; [destruct X; subst; discriminate | exact R | destruct X; subst; lia | reflexivity]. Qed.
Ltac not_done_or_raise H := match type of H with raises _ _ _ => destruct H as (? & H & _) | _ => idtac end;
  apply (f_equal done) in H; vm_compute in H; discriminate H.
Theorem step_refuted :
  (* c.fld f8, 0(x9) on RV64G loads x8 *)
  wrong rv64g all64 (hart_at 0x1000 [0; 0; 0; 0; 0; 0; 0; 0; 0x1000] 3 [0x2080; 0]) 0x2080 "c.fld" /\
  (* c.flw f8, 0(x9) on RV32G does not box the value *)
  wrong rv32g (2 ^ 32 - 1) (hart_at 0x1000 [] 3 []) 0x6080 "c.flw" /\
  (* c.fldsp f8, 16(x2) on RV32G with x2 = 0xfffffff8 leaves the address space *)
  wrong rv32g (2 ^ 32 - 1) (hart_at 0x1000 [0; 0xfffffff8] 3 []) 0x2442 "c.fldsp" /\
  (* fsw f1, 0(x2) with FS = Off does nothing *)
  wrong rv64g all64 (hart_at 0x1000 [] 0 []) 0x00112027 "fsw" /\
  (* flw f1, 0(x2) with FS = Off loads *)
  wrong rv64g all64 (hart_at 0x1000 [] 0 []) 0x00012087 "flw" /\
  (* flw f1, 0(x2) with FS = Clean leaves it Clean *)
  wrong rv64g all64 (hart_at 0x1000 [] 2 []) 0x00012087 "flw".
Proof.
  assert (X32 : 32 = 32 \/ 32 = 64) by (left; reflexivity). assert (X64 : 64 = 32 \/ 64 = 64) by (right; reflexivity).
  split; [| split; [| split; [| split; [| split]]]].
  - eapply (wrong_by rv64g _ _ _ _ _ "cfld" rv64g_in); [apply (hart0_ok 64 _ _ _ X64); reflexivity | vm_compute; reflexivity | reflexivity |].
    cbn [executes im_sim rv64g s_xlen sim_RV64G]. intros (n & b & o & _ & _ & _ & H). cbv zeta in H. rewrite no_limit64 in H. cbn [hart_at hfs Z.eqb Pos.eqb] in H.
    destruct H as (r & h' & _ & E & _ & K & _). specialize (K 8).
    assert (Y : hx (state_of (result sim_RV64G (Some 4) all64 (hart_at 0x1000 [0; 0; 0; 0; 0; 0; 0; 0; 0x1000] 3 [0x2080; 0]) 0x2080)) 8 = hx h' 8)
      by (rewrite E; reflexivity).
    rewrite K in Y. vm_compute in Y. discriminate Y.
  - eapply (wrong_by rv32g _ _ _ _ _ "cflw" rv32g_in); [apply (hart0_ok 32 _ _ _ X32); reflexivity | vm_compute; reflexivity | reflexivity |].
    cbn [executes im_sim rv32g s_xlen sim_RV32G]. intros (n & b & o & N & _ & _ & H). apply (opd_is _ f_CL "cl_rd" _ _ 8) in N; [| vm_compute; reflexivity | vm_compute; reflexivity]. cbv zeta in H. rewrite no_limit32 in H. cbn [hart_at hfs Z.eqb Pos.eqb] in H.
    destruct H as (r & h' & (v & _ & [_ BX]) & E & (F & _) & _). specialize (BX 63 ltac:(lia)). cbn [Z.ltb Z.compare Pos.compare Pos.compare_cont] in BX.
    rewrite <- F in BX.
    assert (Y : hf (state_of (result sim_RV32G (Some 4) (2 ^ 32 - 1) (hart_at 0x1000 [] 3 []) 0x6080)) n = hf h' n) by (rewrite E; reflexivity).
    rewrite <- Y in BX. rewrite N in BX. vm_compute in BX. discriminate BX.
  - eapply (wrong_by rv32g _ _ _ _ _ "cfldsp" rv32g_in); [apply (hart0_ok 32 _ _ _ X32); reflexivity | vm_compute; reflexivity | reflexivity |].
    cbn [executes im_sim rv32g s_xlen sim_RV32G]. intros (n & b & o & _ & _ & _ & H). cbv zeta in H. rewrite no_limit32 in H. cbn [hart_at hfs Z.eqb Pos.eqb] in H.
    destruct H as (r & h' & _ & H & _). not_done_or_raise H.
  - eapply (wrong_by rv64g _ _ _ _ _ "fsw" rv64g_in); [apply (hart0_ok 64 _ _ _ X64); reflexivity | vm_compute; reflexivity | reflexivity |].
    cbn [executes im_sim rv64g s_xlen sim_RV64G]. intros (n & b & o & _ & _ & _ & H). cbv zeta in H. cbn [hart_at hfs Z.eqb Pos.eqb] in H.
    not_done_or_raise H.
  - eapply (wrong_by rv64g _ _ _ _ _ "flw" rv64g_in); [apply (hart0_ok 64 _ _ _ X64); reflexivity | vm_compute; reflexivity | reflexivity |].
    cbn [executes im_sim rv64g s_xlen sim_RV64G]. intros (n & b & o & _ & _ & _ & H). cbv zeta in H. cbn [hart_at hfs Z.eqb Pos.eqb] in H.
    not_done_or_raise H.
  - eapply (wrong_by rv64g _ _ _ _ _ "flw" rv64g_in); [apply (hart0_ok 64 _ _ _ X64); reflexivity | vm_compute; reflexivity | reflexivity |].
    cbn [executes im_sim rv64g s_xlen sim_RV64G]. intros (n & b & o & _ & _ & _ & H). cbv zeta in H. rewrite no_limit64 in H. cbn [hart_at hfs Z.eqb Pos.eqb] in H.
    destruct H as (r & h' & _ & E & (_ & _ & F) & _).
    assert (Y : hfs (state_of (result sim_RV64G (Some 4) all64 (hart_at 0x1000 [] 2 []) 0x00012087)) = hfs h') by (rewrite E; reflexivity).
    rewrite F in Y. vm_compute in Y. discriminate Y.
Qed.
Print Assumptions step_refuted.

(** * C74: running a program from memory *)
(** Step(n) from any state, with an empty decode cache: as long as the run the manual prescribes only meets instructions
    covered by C73 (or words that are no instructions), does not run off the end of the address space and does not
    execute an instruction it has overwritten since it last executed it, there is a run, and every run ends, after [n]
    instructions or at the first exception, in an outcome the manual prescribes. *)
Theorem run_correct_partial : forall I misa max n h, In I simulators ->
  let S := im_sim I in let xlen := s_xlen S in let has_c := Z.testbit misa 2 in
  hart_ok xlen h -> covered_run xlen has_c max (im_32 I) (im_16 I) (im_broken I) n h ->
  (exists res, top_step S misa max n h no_cache res) /\
  forall res, top_step S misa max n h no_cache res ->
    exists out, res = Ran out /\ runs xlen has_c max (ds_manual (im_32 I)) (ds_manual (im_16 I)) n h out.
Proof.
  cbv zeta. intros I misa max n h HI OK C. rewrite <- has_c_bit in *.
  assert (CO : coherent I misa max n h no_cache) by (intros a x E; discriminate E).
  split; [exact (run_exists I misa max HI n h no_cache OK C CO) |].
  intros res. exact (run_sound I misa max HI n h no_cache res OK C CO).
Qed.
Print Assumptions run_correct_partial.

(** addi x1, x1, 1; jal x0, -4, for any number of steps. *)
Definition loop_code : list Z := [0x00108093; 0xffdff06f].
Definition at_loop (h : hart) : Prop := (hpc h = 0x1000 \/ hpc h = 0x1004) /\ forall a, hm h a = program 0x1000 loop_code a.
Lemma loop_fetch h : at_loop h -> fetched h (if hpc h =? 0x1000 then 0x00108093 else 0xffdff06f).
Proof.
  intros [P M]. apply fetched_const; destruct P as [P | P]; rewrite P; rewrite ?M; cbn [Z.eqb Pos.eqb];
    first [split; [discriminate | reflexivity] | reflexivity].
Qed.
Lemma loop_step h h' : at_loop h -> steps_to 64 true all64 (ds_manual s_RiscV64G) (ds_manual s_RiscV64C) h (Done h') -> at_loop h'.
Proof.
  intros L ST. pose proof (loop_fetch h L) as F. destruct L as [P M]. inversion ST as [_ R | iw e i _ F' He Me Hi X | iw _ _ _ R].
  - destruct R as (? & R & _). discriminate R.
  - pose proof (fetched_unique h iw _ F' F) as E. clear F' F. subst iw. destruct P as [P | P]; rewrite P in *; cbn [Z.eqb Pos.eqb] in *.
    + apply (mnemonics_ok _ _ e He) in Me. change (word_of 0x00108093) with 0x00108093 in *. change (long 0x00108093) with true in *.
      assert (N : mnemonics (ds_manual s_RiscV64G) 0x00108093 = ["addi"]) by (vm_compute; reflexivity).
      rewrite N in Me. destruct Me as [Me | []]. rewrite <- Me in Hi. vm_compute in Hi. injection Hi as <-.
      cbn [executes] in X. destruct X as (n & va & vb & r & h1 & _ & _ & _ & _ & E & _ & _ & KM & PC). injection E as <-.
      split; [right; rewrite PC, P; reflexivity | intros a; rewrite KM; apply M].
    + apply (mnemonics_ok _ _ e He) in Me. change (word_of 0xffdff06f) with 0xffdff06f in *. change (long 0xffdff06f) with true in *.
      assert (N : mnemonics (ds_manual s_RiscV64G) 0xffdff06f = ["jal"]) by (vm_compute; reflexivity).
      rewrite N in Me. destruct Me as [Me | []]. rewrite <- Me in Hi. assert (Q : semantics 64 "jal" = Some (IJal (Rd o_rd) (Imm o_imm_j))) by (vm_compute; reflexivity).
      rewrite Q in Hi. apply Some_inj in Hi. subst i. cbn [executes opd_value] in X. destruct X as (n & o & _ & (v & V & ->) & T).
      apply (opd_is _ f_JType "j_imm" _ _ (-4)) in V; [subst v | vm_compute; reflexivity | vm_compute; reflexivity].
      rewrite P in T. unfold transfers in T.
      assert (J : jump_spec true ((0x1004 + -4 mod 2 ^ 64) mod 2 ^ 64) ((0x1004 + size_of 0xffdff06f) mod 2 ^ 64) 0x1004 =
                  {| c_pc := Some 0x1000; c_link := Some 0x1008; c_trap := None |}) by (vm_compute; reflexivity).
      rewrite J in T. cbn [c_trap c_pc c_link] in T. destruct T as (h1 & E & _ & KM & PC & _). injection E as <-.
      split; [left; exact PC | intros a; rewrite KM; apply M].
  - destruct R as (? & R & _). discriminate R.
Qed.
Example run_correct_nonvacuous : forall n, let h := hart_at 0x1000 [41] 3 loop_code in
  hart_ok 64 h /\ covered_run 64 true all64 s_RiscV64G s_RiscV64C ["c.fld"] n h.
Proof.
  intros n h. split; [apply hart0_ok; [right |]; reflexivity |].
  assert (L0 : at_loop h) by (split; [left; reflexivity | intros a; reflexivity]).
  assert (LR : forall k g g', at_loop g -> runs 64 true all64 (ds_manual s_RiscV64G) (ds_manual s_RiscV64C) k g (Done g') -> at_loop g').
  { induction k as [| k IH]; intros g g' L R; inversion R; subst; [exact L |]. eapply IH; [| eassumption]. eapply loop_step; eassumption. }
  split.
  - intros j h' _ R. pose proof (LR j h h' L0 R) as L. pose proof (loop_fetch h' L) as F. destruct L as [P M].
    split; [left; reflexivity |]. intros _ iw F'. left. pose proof (fetched_unique h' iw _ F' F) as E. clear F' F. subst iw.
    destruct P as [P | P]; rewrite P; cbn [Z.eqb Pos.eqb]; (split; [| reflexivity]).
    + exists "addi", (IOp Add (Rd o_rd) (Reg o_rs1) (Imm o_imm_i)). apply regular_ok; try (vm_compute; reflexivity). intros X. exact X.
    + exists "jal", (IJal (Rd o_rd) (Imm o_imm_j)). apply regular_ok; try (vm_compute; reflexivity). intros X. exact X.
  - intros j k h1 h2 _ R1 R2 E iw F. pose proof (LR j h h1 L0 R1) as L1. pose proof (LR k h1 h2 L1 R2) as L2.
    pose proof (loop_fetch h2 L2) as F2. rewrite E in F2. rewrite (fetched_unique h1 _ _ F (loop_fetch h1 L1)). exact F2.
Qed.

(** Running off the end of the address space: RV32, nop at 0xfffffffc, C present.  One step leaves pc = 0, where the next
    nop is; Step(2) does not execute that but goes on to address 2^32. *)
Theorem run_wraps_refuted :
  let h := hart_at 0xfffffffc [] 3 [0x13] in let max := 0x3fffffffff in
  hart_ok 32 h /\
  (exists h1, top_step sim_RV32G 4 max 1 h no_cache (Ran (Done h1)) /\ hpc h1 = 0) /\
  (exists h2, top_step sim_RV32G 4 max 2 h no_cache (Beyond (2 ^ 32) h2)).
Proof.
  cbv zeta. set (h := hart_at _ _ _ _). split; [apply hart_at_ok; [discriminate | reflexivity | split; [discriminate | reflexivity] | reflexivity] |].
  assert (A : finished (run_eval sim_RV32G 4 0x3fffffffff 1 (hpc h) h no_cache) = true) by (vm_compute; reflexivity).
  split.
  - exists (final (run_eval sim_RV32G 4 0x3fffffffff 1 (hpc h) h no_cache) h). split.
    + apply run_eval_ok. apply finished_ok. exact A.
    + vm_compute. reflexivity.
  - assert (B : exists h2, run_eval sim_RV32G 4 0x3fffffffff 2 (hpc h) h no_cache = Some (Beyond (2 ^ 32) h2)).
    { assert (E : match run_eval sim_RV32G 4 0x3fffffffff 2 (hpc h) h no_cache with Some (Beyond pc _) => pc =? 2 ^ 32 | _ => false end = true)
        by (vm_compute; reflexivity).
      destruct (run_eval sim_RV32G 4 0x3fffffffff 2 (hpc h) h no_cache) as [[out | pc h2 |] |]; try discriminate E.
      apply Z.eqb_eq in E. subst pc. exists h2. reflexivity. }
    destruct B as [h2 B]. exists h2. apply run_eval_ok. exact B.
Qed.
Print Assumptions run_wraps_refuted.

(** * C75: modified code *)
(** Code may be written and then executed (run_correct_partial allows any store that does not hit an instruction executed
    before and executed again).  But fence.i does not make the simulator see a changed instruction:
      0x1000 addi x5, x5, 1; 0x1004 sw x6, 0(x7); 0x1008 fence.i; 0x100c jal x0, -12
    with x7 = 0x1000 and x6 = the word of addi x5, x5, 2.  After four steps the hart is at 0x1000 again; the instruction
    there now makes x5 = 3, whatever the manual's reading of the earlier steps; the fifth step makes it 2. *)
Definition patch_code : list Z := [0x00128293; 0x0063a023; 0x0000100f; 0xff5ff06f].
Definition patch_hart : hart := hart_at 0x1000 [0; 0; 0; 0; 0; 0x00228293; 0x1000] 3 patch_code.
Theorem fence_i_refuted : hart_ok 32 patch_hart /\ word_is s_RiscV32G "fence.i" 0x0000100f = true /\
  exists h4 h5, top_step sim_RV32G 4 (2 ^ 32 - 1) 4 patch_hart no_cache (Ran (Done h4)) /\
    top_step sim_RV32G 4 (2 ^ 32 - 1) 5 patch_hart no_cache (Ran (Done h5)) /\
    hpc h4 = 0x1000 /\ fetched h4 0x00228293 /\ hx h4 5 = 1 /\ hx h5 5 = 2 /\
    forall out, steps_to 32 true (2 ^ 32 - 1) (ds_manual s_RiscV32G) (ds_manual s_RiscV32C) h4 out ->
      exists h', out = Done h' /\ hx h' 5 = 3.
Proof.
  split; [apply hart0_ok; [left |]; reflexivity |]. split; [vm_compute; reflexivity |].
  set (r4 := run_eval sim_RV32G 4 (2 ^ 32 - 1) 4 0x1000 patch_hart no_cache).
  set (r5 := run_eval sim_RV32G 4 (2 ^ 32 - 1) 5 0x1000 patch_hart no_cache).
  assert (P : hpc (final r4 patch_hart) = 0x1000) by (vm_compute; reflexivity).
  assert (X5 : hx (final r4 patch_hart) 5 = 1) by (vm_compute; reflexivity).
  assert (F : fetched (final r4 patch_hart) 0x00228293).
  { apply fetched_const; [split; [discriminate | reflexivity] | | | |]; rewrite P; vm_compute; reflexivity. }
  exists (final r4 patch_hart), (final r5 patch_hart).
  split; [apply run_eval_ok, finished_ok; vm_compute; reflexivity |].
  split; [apply run_eval_ok, finished_ok; vm_compute; reflexivity |].
  do 3 (split; [assumption |]). split; [vm_compute; reflexivity |].
  generalize dependent (final r4 patch_hart). intros h4 P X5 F out ST.
  inversion ST as [LT | iw e i _ F' He Me Hi X | iw _ F' N _].
  - rewrite P in LT. discriminate LT.
  - pose proof (fetched_unique h4 iw _ F' F) as E. subst iw. clear F' F.
    apply (mnemonics_ok _ _ e He) in Me. change (word_of 0x00228293) with 0x00228293 in *. change (long 0x00228293) with true in *.
    assert (N : mnemonics (ds_manual s_RiscV32G) 0x00228293 = ["addi"]) by (vm_compute; reflexivity).
    rewrite N in Me. destruct Me as [Me | []]. rewrite <- Me in Hi. assert (Q : semantics 32 "addi" = Some (IOp Add (Rd o_rd) (Reg o_rs1) (Imm o_imm_i))) by (vm_compute; reflexivity).
    rewrite Q in Hi. apply Some_inj in Hi. subst i. cbn [executes opd_value names] in X.
    destruct X as (n & va & vb & r & h' & N1 & (k & N2 & ->) & (v & N3 & ->) & [_ R] & -> & (WX & _) & _).
    apply (opd_is _ f_RType "rd" _ _ 5) in N1; [subst n | vm_compute; reflexivity | vm_compute; reflexivity].
    apply (opd_is _ f_RType "rs1" _ _ 5) in N2; [subst k | vm_compute; reflexivity | vm_compute; reflexivity].
    apply (opd_is _ f_IType "imm12" _ _ 2) in N3; [subst v | vm_compute; reflexivity | vm_compute; reflexivity].
    exists h'. split; [reflexivity |]. rewrite WX by discriminate. cbn [iop_rel] in R. rewrite R, X5. reflexivity.
  - exfalso. pose proof (fetched_unique h4 iw _ F' F) as E. subst iw.
    assert (W : word_is s_RiscV32G "addi" 0x00228293 = true) by (vm_compute; reflexivity).
    unfold word_is in W. apply existsb_exists in W. destruct W as (e & He & W). apply andb_true_iff in W. rewrite conds_ok in W.
    exact (N e He (proj2 W)).
Qed.
Print Assumptions fence_i_refuted.
