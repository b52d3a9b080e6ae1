(** Theorems C76: the atomic instructions. *)
From Coq Require Import ZArith List String Bool Lia.
From Verif Require Import Bits FmtSpec FmtModel FmtProofs DecSpec DecManual DecModel DecCheck DecTables Memory AccessSpec AccessModel
  StepSpec StepModel StepCheck StepProofs StepTables StepUnique StepEval AmoSpec AmoModel AmoProofs.
Import ListNotations.
Local Open Scope string_scope.
Local Open Scope Z_scope.

(** Every word of an atomic instruction, in each of the eight simulators, at an aligned and accessible address, given an
    atomic memory that does what its interface says. *)
Theorem amo_correct_partial : forall I perform limit h iw m i, In I simulators -> atomic_ok perform ->
  let xlen := s_xlen (im_sim I) in
  hart_ok xlen h -> 0 <= iw < 2 ^ 32 -> amo_regular xlen limit (im_32 I) h iw m i ->
  (exists o, sim_decodes (im_sim I) iw o) /\
  forall o, sim_decodes (im_sim I) iw o -> exists out, amo_opcode (im_sim I) (Some perform) h iw o = Some out /\
    amo_executes xlen limit i iw h out /\ forall h', out = Done h' -> hart_ok xlen h'.
Proof.
  cbv zeta. intros I perform limit h iw m i HI PO OK W (Hl & (e & He & Me & <-) & Hi & NM & AL).
  exact (amo_word_good I iw HI W Hl perform limit h e i PO OK He Me Hi NM AL).
Qed.
Print Assumptions amo_correct_partial.

(** An atomic memory satisfying the hypothesis: a store-conditional always succeeds. *)
Definition ideal (o : operation) (n : nat) (a x : Z) (m : mem) : reply :=
  let old := load_le m a n in
  match o with
  | kLoadLinked => Replied m old
  | kStoreConditional => Replied (store_le m a n x) 0
  | kAtomicSub => Unimplemented
  | _ => match operation_amo o with Some op => Replied (store_le m a n (amo_value op (8 * Z.of_nat n) old x)) old | None => Failed end
  end.
Lemma ideal_ok : atomic_ok ideal.
Proof.
  intros o n a x m NN _ _ _. cbv zeta. pose proof (pow2_pos (8 * Z.of_nat n) ltac:(lia)).
  destruct o; cbn [ideal operation_amo]; try exact Logic.I; try (eexists; split; [reflexivity | intros y; reflexivity]).
  exists (store_le m a n x), 0. split; [reflexivity |]. split; [lia |]. intros y. reflexivity.
Qed.
(** amoadd.w x3, x2, (x1) on RV64G with x1 = 0x2000, x2 = 5. *)
Definition amoadd := 0x0020a1af.
Lemma amoadd_word I : In I simulators -> 0 <= amoadd < 2 ^ 32 /\ amoadd mod 4 = 3.
Proof. intros _. split; [split; [discriminate | reflexivity] | reflexivity]. Qed.
Lemma amoadd_means : exists e, In e (ds_manual s_RiscV64G) /\ means e amoadd /\ mnemonic e = "amoadd.w".
Proof.
  assert (X : word_is s_RiscV64G "amoadd.w" amoadd = true) by (vm_compute; reflexivity).
  unfold word_is in X. apply existsb_exists in X. destruct X as (e & He & E). apply andb_true_iff in E.
  rewrite String.eqb_eq, conds_ok in E. exists e. tauto.
Qed.
Lemma amoadd_listed : ~ listed (ds_missing s_RiscV64G) "amoadd.w" amoadd.
Proof. intros X. apply listedb_ok in X. vm_compute in X. discriminate X. Qed.
Definition rv64g := impl sim_RV64G s_RiscV64G s_RiscV64C ["c.fld"].
Lemma rv64g_in : In rv64g simulators. Proof. right. left. reflexivity. Qed.
Lemma amoadd_regular limit a x ws : a mod 4 = 0 -> a <= limit ->
  amo_regular 64 limit s_RiscV64G (hart_at 0x1000 [a; x] 3 ws) amoadd "amoadd.w" (Amo AmoAdd 4).
Proof.
  intros A L. split; [reflexivity |]. split; [exact amoadd_means |]. split; [reflexivity |]. split; [exact amoadd_listed |].
  intros rs1 E. apply (opd_is _ f_RType "rs1" _ _ 1) in E; [| vm_compute; reflexivity | vm_compute; reflexivity]. subst rs1. split; [exact A | exact L].
Qed.
Example amo_correct_nonvacuous : atomic_ok ideal /\ hart_ok 64 (hart_at 0x1000 [0x2000; 5] 3 []) /\
  amo_regular 64 0xffffffff s_RiscV64G (hart_at 0x1000 [0x2000; 5] 3 []) amoadd "amoadd.w" (Amo AmoAdd 4) /\
  exists o h', sim_decodes sim_RV64G amoadd o /\ amo_opcode sim_RV64G (Some ideal) (hart_at 0x1000 [0x2000; 5] 3 []) amoadd o = Some (Done h') /\
    hx h' 3 = 0 /\ hm h' 0x2000 = 5.
Proof.
  split; [exact ideal_ok |]. split; [apply hart_at_ok; [discriminate | reflexivity | split; [discriminate | reflexivity] | reflexivity] |].
  split; [apply amoadd_regular; [reflexivity | discriminate] |].
  set (out := amo_opcode sim_RV64G (Some ideal) (hart_at 0x1000 [0x2000; 5] 3 []) amoadd "amoaddw").
  exists "amoaddw", (match out with Some o => state_of o | None => hart_at 0 [] 0 [] end).
  split; [apply first_opcode_ok; vm_compute; reflexivity |].
  split; [| split; vm_compute; reflexivity].
  assert (X : match out with Some o => done o | None => false end = true) by (vm_compute; reflexivity).
  fold out. destruct out as [o |]; [| discriminate X]. f_equal. exact (done_ok o X).
Qed.

(** The only exception an atomic instruction raises is illegal instruction, whatever the atomic memory does; so an address
    beyond the limit, and a misaligned one, do not raise the exceptions they should.  Without an atomic memory every
    atomic instruction is illegal. *)
Lemma amo_trap S atomic h iw o t h' : amo_opcode S atomic h iw o = Some (Raise t h') -> t = illegal (hpc h).
Proof.
  unfold amo_opcode. destruct (find _ (amo_isa S)) as [ir |]; [| discriminate]. unfold amo_exec.
  destruct (assoc amo_funcs (i_sem ir)) as [[[op n] st] |]; [| discriminate].
  destruct (assoc semfuncs (i_child ir)) as [child |]; [| discriminate].
  destruct (get_dst S (i_dst ir) 0) as [d |]; [| discriminate]. destruct (get_src S (i_src ir) 0) as [s1 |]; [| discriminate].
  destruct atomic as [perform |]; [| intros E; injection E as <- _; reflexivity]. cbv zeta.
  match goal with |- match ?x with _ => _ end = _ -> _ => destruct x as [x0 |] end; [| discriminate].
  destruct (perform op n _ x0 (hm h)) as [| | m v]; [intros E; injection E as <- _; reflexivity | unfold next; discriminate |].
  destruct (exec_child _ _ _ _ _ _); unfold next; discriminate.
Qed.
Theorem amo_faults_refuted :
  (* beyond the limit *)
  (exists h limit, hart_ok 64 h /\ (forall rs1, encodes o_rs1 amoadd rs1 -> limit < hx h rs1 /\ aligned (hx h rs1) 4) /\
     forall perform o out, amo_opcode sim_RV64G (Some perform) h amoadd o = Some out -> ~ amo_executes 64 limit (Amo AmoAdd 4) amoadd h out) /\
  (* misaligned *)
  (exists h, hart_ok 64 h /\ (forall rs1, encodes o_rs1 amoadd rs1 -> ~ aligned (hx h rs1) 4) /\
     forall perform limit o out, amo_opcode sim_RV64G (Some perform) h amoadd o = Some out ->
       ~ amo_executes 64 limit (Amo AmoAdd 4) amoadd h out) /\
  (exists e o, In e (ds_manual s_RiscV64G) /\ means e amoadd /\ mnemonic e = "amoadd.w" /\ sim_decodes sim_RV64G amoadd o).
Proof.
  assert (OK : forall a, 0 <= a < 2 ^ 64 -> hart_ok 64 (hart_at 0x1000 [a; 5] 3 [])).
  { intros a A. apply hart_at_ok; [discriminate | | split; [discriminate | reflexivity] | reflexivity].
    cbn [forallb]. destruct A as [A B]. apply Z.leb_le in A. apply Z.ltb_lt in B. rewrite A, B. reflexivity. }
  assert (R1 : forall n, encodes o_rs1 amoadd n -> n = 1).
  { intros n E. apply (opd_is _ f_RType "rs1" _ _ 1) in E; [exact E | vm_compute; reflexivity | vm_compute; reflexivity]. }
  assert (NR : forall perform h o out t, amo_opcode sim_RV64G (Some perform) h amoadd o = Some out -> t <> illegal (hpc h) -> ~ raises h t out).
  { intros perform h o out t E N (h' & -> & _). apply N. exact (amo_trap _ _ _ _ _ _ _ E). }
  split; [| split].
  - exists (hart_at 0x1000 [0x2000; 5] 3 []), 0x1fff. split; [apply OK; split; [discriminate | reflexivity] |].
    split; [intros rs1 E; rewrite (R1 _ E); split; reflexivity |].
    intros perform o out E (rd & rs1 & rs2 & _ & E1 & _ & H). rewrite (R1 _ E1) in H. cbn in H.
    revert H. apply (NR perform _ o out _ E). discriminate.
  - exists (hart_at 0x1000 [0x2001; 5] 3 []). split; [apply OK; split; [discriminate | reflexivity] |].
    split; [intros rs1 E; rewrite (R1 _ E); discriminate |].
    intros perform limit o out E (rd & rs1 & rs2 & _ & E1 & _ & H). rewrite (R1 _ E1) in H. cbn in H.
    destruct H as [H | H]; revert H; apply (NR perform _ o out _ E); discriminate.
  - destruct amoadd_means as (e & A & B & C). exists e, "amoaddw". do 3 (split; [assumption |]). apply first_opcode_ok. vm_compute. reflexivity.
Qed.
Print Assumptions amo_faults_refuted.
(** Without an atomic memory. *)
Theorem amo_without_memory : forall I h iw m i o, In I simulators -> 0 <= iw < 2 ^ 32 -> hart_ok (s_xlen (im_sim I)) h ->
  amo_regular (s_xlen (im_sim I)) (2 ^ 64) (im_32 I) h iw m i -> sim_decodes (im_sim I) iw o ->
  exists out, amo_opcode (im_sim I) None h iw o = Some out /\ raises h (illegal (hpc h)) out.
Proof.
  intros I h iw m i o HI W OK (Hl & (e & He & Me & <-) & Hi & NM & AL) A.
  destruct (proj2 (amo_word_good I iw HI W Hl ideal _ h e i ideal_ok OK He Me Hi NM AL) o A) as (out & E & _).
  unfold amo_opcode in *. destruct (find _ _) as [ir |]; [| discriminate E]. unfold amo_exec in *.
  destruct (assoc amo_funcs (i_sem ir)) as [[[op n] st] |]; [| discriminate E].
  destruct (assoc semfuncs (i_child ir)) as [child |]; [| discriminate E].
  destruct (get_dst _ (i_dst ir) 0) as [d |]; [| discriminate E]. destruct (get_src _ (i_src ir) 0) as [s1 |]; [| discriminate E].
  eexists. split; [reflexivity |]. exists h. split; [reflexivity | apply unchanged_refl].
Qed.
Print Assumptions amo_without_memory.
