(** Proofs for C93: the comparison of the tables of the four simulators with the manual, and what follows for a word. *)
From Coq Require Import ZArith List String Bool Lia.
From Verif Require Import Bits FmtSpec FmtModel DecSpec DecManual DecModel DecCheck DecProofs DecTables DecProps Memory AccessSpec AccessModel
  StepSpec StepModel StepCheck StepProofs StepTables IeeeSpec FpSpec FarithSpec FstepSpec IntModel FpModel FpProofs FpProps FarithModel FarithProofs FarithProps FstepModel FstepProofs.
Import ListNotations.
Local Open Scope string_scope.
Local Open Scope Z_scope.

(** The simulators covered. *)
Definition fp_simulators : list implementation :=
  [ impl sim_RV32G s_RiscV32G s_RiscV32C ["c.flw"; "c.flwsp"];
    impl sim_RV64G s_RiscV64G s_RiscV64C ["c.fld"];
    impl sim_RV32GV s_RiscV32GV s_RiscV32C ["c.flw"; "c.flwsp"; "c.fld"];
    impl sim_RV64GV s_RiscV64GV s_RiscV64C ["c.fld"] ].
Lemma fp_simulators_in I : In I fp_simulators -> In I simulators.
Proof. unfold fp_simulators, simulators. cbn [In]. tauto. Qed.

Definition entry_fp (S : simulator) (D : decoder_spec) (e : entry) (i : comp) : bool :=
  forallb (fun o => match fp_row S o with Some ir => row_fp S ir i | None => false end) (related D e).
Definition missing_fp (D : decoder_spec) (m : string) : bool :=
  existsb (fun g => existsb (String.eqb m) (rg_names g)) (ds_missing D).
Definition table_fp (S : simulator) (D : decoder_spec) : bool :=
  forallb (fun mi =>
    negb (missing_fp D (fst mi)) && existsb (fun e => String.eqb (mnemonic e) (fst mi)) (ds_manual D) &&
    forallb (fun e => if String.eqb (mnemonic e) (fst mi) then entry_fp S D e (snd mi) else true) (ds_manual D))
    (instructions (s_xlen S)).
Lemma tables_fp : forallb (fun I => table_fp (im_sim I) (im_32 I)) fp_simulators = true.
Proof. vm_cast_no_check (eq_refl true). Qed.

(** No compressed instruction has one of these mnemonics. *)
Lemma short_fp : forallb (fun I => forallb (fun mi => forallb (fun e => negb (String.eqb (mnemonic e) (fst mi))) (ds_manual (im_16 I)))
  (instructions (s_xlen (im_sim I)))) fp_simulators = true.
Proof. vm_cast_no_check (eq_refl true). Qed.

Section Word.
Variables (I : implementation) (w : Z).
Hypothesis HI : In I fp_simulators.
Hypothesis Hw : 0 <= w < 2 ^ 32.
Let S := im_sim I.
Let xl := s_xlen S.

Lemma word_row m i e : In (m, i) (instructions xl) -> In e (ds_manual (im_spec I w)) -> mnemonic e = m -> means e (word_of w) ->
  long w = true /\ (exists o, sim_decodes S w o) /\
  forall o, sim_decodes S w o -> exists ir, fp_row S o = Some ir /\ row_fp S ir i = true.
Proof.
  intros Hm He Em Me. pose proof (fp_simulators_in I HI) as HS.
  assert (L : long w = true).
  { destruct (long w) eqn:L; [reflexivity |]. pose proof short_fp as T. rewrite forallb_forall in T. specialize (T I HI). rewrite forallb_forall in T.
    specialize (T (m, i) Hm). rewrite forallb_forall in T. unfold im_spec, spec_of in He. rewrite L in He. specialize (T e He). cbn [fst] in T. rewrite Em, String.eqb_refl in T. discriminate T. }
  split; [exact L |].
  pose proof tables_fp as T. rewrite forallb_forall in T. specialize (T I HI). unfold table_fp in T. rewrite forallb_forall in T. specialize (T (m, i) Hm).
  cbn [fst snd] in T. apply andb_true_iff in T. destruct T as [T RW]. apply andb_true_iff in T. destruct T as [NM _].
  assert (ED : im_spec I w = im_32 I) by (unfold im_spec, spec_of; rewrite L; reflexivity).
  rewrite forallb_forall in RW. rewrite ED in He. specialize (RW e He). rewrite Em, String.eqb_refl in RW. unfold entry_fp in RW. rewrite forallb_forall in RW.
  destruct (word_decoder I w HS Hw) as [DEC W]. pose proof (word_decoders I w HS Hw) as DS. rewrite ED in DEC, W, DS. fold S in DEC, DS.
  assert (ML : ~ listed (ds_missing (im_32 I)) (mnemonic e) (word_of w)).
  { intros (g & Hg & N & _). apply negb_true_iff in NM. apply not_true_iff_false in NM. apply NM. apply existsb_exists. exists g. split; [exact Hg |].
    apply existsb_exists. exists (mnemonic e). split; [exact N |]. rewrite Em. apply String.eqb_refl. }
  destruct (proj2 (decode_complete_partial (im_32 I) _ DS (word_of w) e W He Me) ML) as (o0 & O0 & A0).
  split; [exists o0; apply sim_decodes_eq; exact A0 |]. intros o A. apply sim_decodes_eq in A.
  assert (R : In o (related (im_32 I) e)).
  { unfold related. apply in_app_iff. destruct (decode_unambiguous (im_32 I) _ DEC (word_of w) o0 o W A0 A) as [<- | (e' & He' & _ & P & Q)].
    - left. exact O0.
    - right. apply in_concat. exists (opcodes e'). split; [| exact Q]. apply in_map_iff. exists e'. split; [| exact He'].
      replace (existsb _ (opcodes e')) with true; [reflexivity |]. symmetry. apply existsb_exists. exists o0. split; [exact P |].
      apply existsb_exists. exists o0. split; [exact O0 | apply String.eqb_refl]. }
  specialize (RW o R). fold S in RW. destruct (fp_row S o) as [ir |]; [| discriminate RW]. exists ir. split; [reflexivity | exact RW].
Qed.

(** What a write of the result leaves. *)
Lemma written_ok i h v fl : hfs (fh h) = 3 -> let h' := done_with xl h (written i w (fh h) v) fl in
  h_frm h' = h_frm h /\ h_flags h' = Z.lor (h_flags h) fl /\
  keeps_m (fh h) (fh h') /\ hpc (fh h') = (hpc (fh h) + 4) mod 2 ^ xl /\
  (if x_target i
   then writes_x (fh h) (fh h') (rd_of w) v /\ (forall n, hf (fh h') n = hf (fh h) n) /\
        (hfs (fh h') = 3 \/ hfs (fh h') = hfs (fh h) /\ h_flags h' = h_flags h)
   else keeps_x (fh h) (fh h') /\ writes_f (fh h) (fh h') (rd_of w) v).
Proof.
  intros FS h'. split; [reflexivity |]. split; [reflexivity |]. subst h'. unfold done_with, written. cbn [fh h_frm h_flags].
  destruct (x_target i).
  - destruct (Z.eqb_spec (rd_of w) 0) as [E | E].
    + split; [intros n; reflexivity |]. split; [reflexivity |]. split; [| split; [intros n; reflexivity | left; exact FS]].
      split; [intros N; contradiction |]. split; [reflexivity | intros k _; reflexivity].
    + split; [intros n; reflexivity |]. split; [reflexivity |]. split; [| split; [intros n; reflexivity | left; exact FS]].
      unfold writes_x, set_x, set_pc. cbn [hx]. split; [intros _; rewrite Z.eqb_refl; reflexivity |]. split; [intros N; contradiction |].
      intros k N. apply Z.eqb_neq in N. rewrite N. reflexivity.
  - split; [intros n; reflexivity |]. split; [reflexivity |]. split; [intros n; reflexivity |]. unfold writes_f, set_f, set_pc. cbn [hf hfs].
    split; [rewrite Z.eqb_refl; reflexivity |]. split; [| exact FS]. intros k N. apply Z.eqb_neq in N. rewrite N. reflexivity.
Qed.
End Word.

(** ** Results fit the registers *)
Lemma box_range f v : f = single \/ f = double -> 0 <= v < 2 ^ width f -> reg (box f v).
Proof.
  intros Hf Hv. unfold reg, box, FLEN. destruct Hf as [-> | ->].
  - change (width single) with 32 in *. change (2 ^ 32) with 4294967296 in *. change (2 ^ (64 - 32)) with 4294967296. change (2 ^ 64) with 18446744073709551616. clear - Hv. lia.
  - change (width double) with 64 in *. change (2 ^ (64 - 64)) with 1. clear - Hv. lia.
Qed.
Lemma flag_range xl b : xl = 32 \/ xl = 64 -> 0 <= Z.b2z b < 2 ^ xl.
Proof. intros [-> | ->]; destruct b; cbv; split; congruence. Qed.
Lemma class_range xl f x : xl = 32 \/ xl = 64 -> 0 <= 2 ^ class_bit f x < 2 ^ xl.
Proof.
  intros XL. assert (0 <= class_bit f x <= 9) as C by (unfold class_bit; repeat match goal with |- context[if ?b then _ else _] => destruct b end; lia).
  split; [apply Z.pow_nonneg; lia |]. apply Z.pow_lt_mono_r; [lia | destruct XL; lia | destruct XL; lia].
Qed.
Lemma result_range xl i mode a b c d fl : xl = 32 \/ xl = 64 -> listed_comp xl i -> prescribed xl i mode a b c d fl ->
  if x_target i then 0 <= d < 2 ^ xl else reg d.
Proof.
  intros XL HI. revert i HI.
  assert (WR : forall v, 0 <= wrap xl v < 2 ^ xl) by (intros v; apply Z.mod_pos_bound; destruct XL as [-> | ->]; reflexivity).
  apply (comp_cases xl (fun i => prescribed xl i mode a b c d fl -> if x_target i then 0 <= d < 2 ^ xl else reg d)).
  - intros f Hf. pose proof (sd_in f Hf) as Fi. pose proof (formats_ok f Fi) as Fo.
    pose proof (unbox_range f a Fi) as Ua. pose proof (unbox_range f b Fi) as Ub. pose proof (unbox_range f c Fi) as Uc.
    assert (BC : forall v, canonical f v -> reg (box f v)) by (intros v C; apply box_range; [exact Hf | apply canonical_range; assumption]).
    assert (OF : forall (t : bool) x, 0 <= x < 2 ^ width f -> 0 <= opt_flip f t x < 2 ^ width f)
      by (intros [] x Hx; [apply flip_facts; assumption | exact Hx]).
    cbn [prescribed x_target correct]. unfold a_correct. cbn [a_fmt a_result].
    repeat (apply conj); try (intros ? ?); try (intros [-> _]).
    + apply BC, add_canonical; assumption.
    + apply BC, sub_canonical; assumption.
    + apply BC, mul_canonical; assumption.
    + apply BC, div_canonical; assumption.
    + apply BC. unfold canonical. destruct (is_nan f (unbox f a)) eqn:N; [right; unfold ieee_sqrt; rewrite N; reflexivity |].
      destruct (is_zero f (unbox f a)) eqn:Z0; [left; apply sqrt_number; auto |].
      destruct (sign f (unbox f a)) eqn:Sg; [right; unfold ieee_sqrt; rewrite N, Z0, Sg; reflexivity | left; apply sqrt_number; auto].
    + apply BC, fma_canonical; [assumption | apply OF; assumption].
    + apply box_range; [exact Hf | apply min_max_range; assumption].
    + apply box_range; [exact Hf | apply min_max_range; assumption].
    + match goal with H : _ /\ _ |- _ => destruct H as [-> _] end. apply box_range; [exact Hf | apply inject_range; assumption].
    + apply flag_range; exact XL.
    + apply flag_range; exact XL.
    + apply flag_range; exact XL.
    + apply class_range; exact XL.
    + intros _. split; [intros (v & _ & ->); apply WR |]. intros [-> _]. apply BC. left. apply int_number. exact Fo.
    + intros _. split; [intros [-> _]; apply WR |]. intros [-> _]. apply box_range; [exact Hf |]. apply Z.mod_pos_bound.
      destruct Hf as [-> | ->]; reflexivity.
  - cbn [prescribed x_target]. intros [-> _]. apply box_range; [left; reflexivity |]. cbn [a_fmt a_result]. unfold ieee_cvt.
    destruct (is_nan double (unbox double a)) eqn:N; [cbv; split; congruence |].
    pose proof (cvt_number double single mode (unbox double a) ltac:(apply formats_ok; right; right; left; reflexivity) ltac:(apply formats_ok; right; left; reflexivity) N) as C.
    unfold ieee_cvt in C. rewrite N in C. exact (proj1 C).
  - cbn [prescribed x_target correct]. intros (r & (_ & R & _) & ->). apply box_range; [right; reflexivity | exact R].
Qed.
