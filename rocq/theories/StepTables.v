(** Proofs for C73-C75: the simulators, the comparison of their tables with the manuals, and what follows for a word
    and for a run. *)
From Coq Require Import ZArith List String Bool Lia.
From Verif Require Import Bits FmtSpec FmtModel FmtProofs DecSpec DecManual DecModel DecCheck DecProofs DecTables DecProps IntSpec IntModel
  Memory AccessSpec AccessModel StepSpec StepModel StepCheck StepProofs.
Import ListNotations.
Local Open Scope string_scope.
Local Open Scope Z_scope.

(** The simulators: model, manual of the 32-bit and of the 16-bit instructions, instructions with a wrong operand or
    semantic function. *)
Record implementation := impl { im_sim : simulator; im_32 : decoder_spec; im_16 : decoder_spec; im_broken : list string }.
Definition simulators : list implementation :=
  [ impl sim_RV32G s_RiscV32G s_RiscV32C ["c.flw"; "c.flwsp"];
    impl sim_RV64G s_RiscV64G s_RiscV64C ["c.fld"];
    impl sim_RV32GV s_RiscV32GV s_RiscV32C ["c.flw"; "c.flwsp"; "c.fld"];
    impl sim_RV64GV s_RiscV64GV s_RiscV64C ["c.fld"];
    impl sim_RV32GZB s_RiscV32GZB s_RiscV32C ["c.flw"; "c.flwsp"];
    impl sim_RV64GZB s_RiscV64GZB s_RiscV64C [];
    impl sim_RV32GVZB s_RiscV32GVZB s_RiscV32C ["c.flw"; "c.flwsp"];
    impl sim_RV64GVZB s_RiscV64GVZB s_RiscV64C [] ].
Definition im_ok (I : implementation) : bool :=
  table_ok (im_sim I) false (im_broken I) (im_32 I) (s_rows32 (im_sim I)) &&
  table_ok (im_sim I) true (im_broken I) (im_16 I) (s_rows16 (im_sim I)).
(** The manual of a word. *)
Definition im_spec (I : implementation) (iw : Z) : decoder_spec := spec_of (im_32 I) (im_16 I) iw.

Lemma simulators_ok : forallb im_ok simulators = true.
Proof. vm_cast_no_check (eq_refl true). Qed.
Lemma sim_cases I : In I simulators ->
  (s_xlen (im_sim I) = 32 \/ s_xlen (im_sim I) = 64) /\
  In (im_32 I, s_rows32 (im_sim I)) (exact_decoders ++ sound_decoders ++ loose_decoders)%list /\ ds_width (im_32 I) = 32 /\
  In (im_16 I, s_rows16 (im_sim I)) (exact_decoders ++ sound_decoders ++ loose_decoders)%list /\ ds_width (im_16 I) = 16.
Proof.
  unfold simulators. cbn [In]. intros H.
  unfold exact_decoders, sound_decoders, loose_decoders.
  repeat (destruct H as [<- | H];
    [cbn [im_sim im_32 im_16 s_xlen s_rows32 s_rows16 app In sim_RV32G sim_RV64G sim_RV32GV sim_RV64GV sim_RV32GZB sim_RV64GZB sim_RV32GVZB
          sim_RV64GVZB];
     split; [first [left; reflexivity | right; reflexivity] |];
     split; [repeat match goal with |- ?x = ?x \/ _ => left; reflexivity | |- _ => right end |]; split; [reflexivity |];
     split; [repeat match goal with |- ?x = ?x \/ _ => left; reflexivity | |- _ => right end |]; reflexivity |]).
  destruct H.
Qed.

Lemma land3 iw : Z.land iw 3 = iw mod 4.
Proof. exact (Z.land_ones iw 2 ltac:(lia)). Qed.
Lemma land_ffff iw : Z.land iw 0xffff = iw mod 2 ^ 16.
Proof. exact (Z.land_ones iw 16 ltac:(lia)). Qed.
Definition sim_rows (S : simulator) (iw : Z) : list row := if long iw then s_rows32 S else s_rows16 S.
Lemma sim_decodes_eq S iw o : sim_decodes S iw o <-> decodes (sim_rows S iw) (word_of iw) o.
Proof. unfold sim_decodes, sim_rows, word_of, long. rewrite land3, land_ffff. destruct (iw mod 4 =? 3); tauto. Qed.

(** ** The loop variable *)
Lemma Some_inj {A} (x y : A) : Some x = Some y -> x = y.
Proof. intros H. injection H as H. exact H. Qed.
Lemma None_some {A} {P : Prop} (x : A) : None = Some x -> P.
Proof. discriminate. Qed.
Lemma exec_lw S misa max h iw ir : 0 <= hpc h -> hpc h + i_size ir < 2 ^ s_xlen S -> s_xlen S = 32 \/ s_xlen S = 64 -> 0 <= i_size ir ->
  exec S 64 misa max h iw ir = exec S (s_xlen S) misa max h iw ir.
Proof.
  intros A B X Z0.
  assert (SP : forall k, set_pc 64 k (hpc h + i_size ir) = set_pc (s_xlen S) k (hpc h + i_size ir)).
  { intros k. unfold set_pc. f_equal. unfold wrap. rewrite !Z.mod_small; [reflexivity | lia |].
    destruct X as [E | E]; rewrite E in *; [| lia]. split; [lia |]. apply Z.lt_trans with (2 ^ 32); [exact B | reflexivity]. }
  assert (NX : forall k, hpc k = hpc h -> next 64 (i_size ir) k = next (s_xlen S) (i_size ir) k).
  { intros k E. unfold next. rewrite E, SP. reflexivity. }
  assert (FC : forall l c, finish_ctl (s_xlen S) 64 (i_size ir) h iw l c = finish_ctl (s_xlen S) (s_xlen S) (i_size ir) h iw l c).
  { intros l c. unfold finish_ctl. destruct (c_trap c); [reflexivity |]. destruct (c_pc c); [reflexivity |].
    destruct (c_link c); destruct l; rewrite ?SP; try reflexivity. destruct (write_x h iw d z); rewrite ?SP; reflexivity. }
  assert (WX : forall d x k, write_x h iw d x = Some k -> hpc k = hpc h).
  { intros d x k. unfold write_x. destruct d; intros E; try discriminate E; injection E as <-;
      repeat match goal with |- context[if ?b then _ else _] => destruct b end; reflexivity. }
  assert (EC : forall w child d x k, exec_child w h iw child d x = Some k -> hpc k = hpc h).
  { intros w child d x k E. unfold exec_child in E.
    destruct child; try exact (None_some _ E); destruct d; try exact (None_some _ E);
      first [apply Some_inj in E; subst k; reflexivity
            | match type of E with (if ?b then _ else _) = _ => destruct b; [exact (WX _ _ _ E) | exact (None_some _ E)] end]. }
  unfold exec. cbv zeta.
  repeat first [ reflexivity | apply FC | apply NX; first [reflexivity | eapply WX; eassumption | eapply EC; eassumption]
    | match goal with |- match ?x with _ => _ end = match ?x with _ => _ end => destruct x eqn:? end
    | match goal with |- (if ?x then _ else _) = (if ?x then _ else _) => destruct x eqn:? end ].
Qed.

(** ** A word *)
Section Word.
Variables (I : implementation) (iw : Z).
Hypothesis HI : In I simulators.
Hypothesis Hw : 0 <= iw < 2 ^ 32.
Let S := im_sim I.
Let D := im_spec I iw.
Let w := word_of iw.

Lemma word_decoder : In (D, sim_rows S iw) (exact_decoders ++ sound_decoders ++ loose_decoders)%list /\ 0 <= w < 2 ^ ds_width D.
Proof.
  destruct (sim_cases I HI) as (_ & A & B & C & E). unfold D, im_spec, spec_of, w, word_of, sim_rows, S.
  destruct (long iw); [rewrite B | rewrite E].
  - split; [exact A | exact Hw].
  - split; [exact C | apply Z.mod_pos_bound; lia].
Qed.
Lemma word_decoders : In (D, sim_rows S iw) decoders.
Proof. unfold decoders. pose proof (proj1 word_decoder) as H. rewrite !in_app_iff in *. tauto. Qed.

Lemma table_here : table_ok S (negb (long iw)) (im_broken I) D (sim_rows S iw) = true.
Proof.
  pose proof simulators_ok as H. rewrite forallb_forall in H. specialize (H I HI). unfold im_ok in H.
  apply andb_true_iff in H. unfold D, im_spec, spec_of, sim_rows. destruct (long iw); cbn [negb]; tauto.
Qed.

Lemma word_good v max h e i : hart_ok (s_xlen S) h -> In e (ds_manual D) -> means e w ->
  semantics (s_xlen S) (mnemonic e) = Some i -> ~ listed (ds_missing D) (mnemonic e) w -> ~ In (mnemonic e) (im_broken I) ->
  ~ deviates (s_xlen S) (negb (Z.land v 4 =? 0)) (mnemonic e) i w h ->
  (exists o, sim_decodes S iw o) /\
  forall o, sim_decodes S iw o -> exists out, sim_exec S (Some v) max h iw o = Some out /\
    executes (s_xlen S) (negb (Z.land v 4 =? 0)) max (size_of iw) i w h out /\
    (forall h', out = Done h' -> hart_ok (s_xlen S) h') /\
    (hpc h + size_of iw < 2 ^ s_xlen S -> exec_opcode S 64 (Some v) max h iw o = Some out).
Proof.
  intros OK He Me Hi NM NB ND.
  destruct word_decoder as [DEC W].
  destruct (proj2 (decode_complete_partial D _ word_decoders w e W He Me) NM) as (o0 & O0 & A0).
  split; [exists o0; apply sim_decodes_eq; exact A0 |]. intros o A. apply sim_decodes_eq in A. fold w in A.
  assert (R : In o (related D e)).
  { unfold related. apply in_app_iff. destruct (decode_unambiguous D _ DEC w o0 o W A0 A) as [<- | (e' & He' & _ & B & C)].
    - left. exact O0.
    - right. apply in_concat. exists (opcodes e'). split; [| exact C]. apply in_map_iff. exists e'. split; [| exact He'].
      replace (existsb _ (opcodes e')) with true; [reflexivity |]. symmetry. apply existsb_exists. exists o0. split; [exact B |].
      apply existsb_exists. exists o0. split; [exact O0 | apply String.eqb_refl]. }
  pose proof table_here as T. unfold table_ok in T. rewrite forallb_forall in T. specialize (T e He). rewrite Hi in T.
  replace (skipped (im_broken I) e i) with false in T.
  2:{ symmetry. unfold skipped. apply orb_false_iff. split.
      - apply not_true_is_false. rewrite existsb_exists. intros (x & Hx & E). apply String.eqb_eq in E. subst x. exact (NB Hx).
      - destruct i as [[]| | | | | | | | |]; try reflexivity. exfalso. apply ND. exact Logic.I. }
  cbn [orb] in T. unfold entry_ok in T. rewrite forallb_forall in T.
  destruct A as (r & Hr & AP & N). specialize (T r Hr). rewrite N in T.
  replace (existsb (String.eqb o) (related D e)) with true in T.
  2:{ symmetry. apply existsb_exists. exists o. split; [exact R | apply String.eqb_refl]. }
  unfold sim_exec, exec_opcode. destruct (find _ (s_isa S)) as [ir |]; [| discriminate T].
  apply andb_true_iff in T. destruct T as [T WD].
  assert (WI : wide S ir = true -> In (mnemonic e) ["c.fld"; "c.fldsp"; "c.fsdsp"]).
  { intros E. rewrite E in WD. cbn [negb orb] in WD. apply existsb_exists in WD. destruct WD as (x & Hx & E').
    apply String.eqb_eq in E'. subst x. exact Hx. }
  assert (EW : w = (if negb (long iw) then iw mod 2 ^ 16 else iw)).
  { unfold w, word_of. destruct (long iw); reflexivity. }
  assert (ES : size_of iw = (if negb (long iw) then 2 else 4)).
  { unfold size_of. destruct (long iw); reflexivity. }
  rewrite EW in ND, AP |- *. rewrite ES.
  destruct (row_good S (negb (long iw)) v max iw h r (proj1 (sim_cases I HI)) OK AP ir i (mnemonic e) T ND WI) as (out & E & X & K).
  exists out. do 3 (split; [assumption |]). intros LT. rewrite <- E.
  assert (SZ : i_size ir = if negb (long iw) then 2 else 4).
  { unfold row_ok in T. cbv zeta in T. apply andb_true_iff in T. apply Z.eqb_eq. exact (proj1 T). }
  apply exec_lw; [apply OK | rewrite SZ; exact LT | exact (proj1 (sim_cases I HI)) |].
  rewrite SZ. destruct (negb (long iw)); discriminate.
Qed.

Lemma word_illegal : (forall e, In e (ds_manual D) -> ~ means e w) -> (forall o, ~ listed (ds_extra D) o w) ->
  forall o, ~ sim_decodes S iw o.
Proof.
  intros NM NE o A. apply sim_decodes_eq in A. destruct word_decoder as [_ W].
  destruct (proj2 (decode_sound_partial D _ word_decoders w o W A) (NE o)) as (e & He & Me & _). exact (NM e He Me).
Qed.
End Word.


(** ** A run *)
Lemma load_le_byte m n : byte_mem m -> forall a k, (k < n)%nat -> load_le m a n / 2 ^ (8 * Z.of_nat k) mod 256 = m (a + Z.of_nat k).
Proof.
  intros M. induction n as [| n IH]; intros a k Hk; [lia |]. cbn [load_le]. pose proof (M a).
  destruct k as [| k].
  - change (2 ^ (8 * Z.of_nat 0)) with 1. change (Z.of_nat 0) with 0. rewrite Z.div_1_r, Z.add_0_r, (Z.mul_comm 256). rewrite Z.mod_add by lia. apply Z.mod_small; assumption.
  - replace (8 * Z.of_nat (S k)) with (8 + 8 * Z.of_nat k) by lia. rewrite Z.pow_add_r by lia. change (2 ^ 8) with 256.
    rewrite <- Z.div_div by (try apply pow2_pos; lia). rewrite (Z.mul_comm 256), Z.div_add by lia. rewrite (Z.div_small (m a) 256) by lia. rewrite Z.add_0_l.
    rewrite IH by lia. f_equal. lia.
Qed.
Lemma bytes_eq n : forall x y, 0 <= x < 2 ^ (8 * Z.of_nat n) -> 0 <= y < 2 ^ (8 * Z.of_nat n) ->
  (forall k, (k < n)%nat -> x / 2 ^ (8 * Z.of_nat k) mod 256 = y / 2 ^ (8 * Z.of_nat k) mod 256) -> x = y.
Proof.
  induction n as [| n IH]; intros x y X Y H; [cbn in *; lia |].
  replace (8 * Z.of_nat (S n)) with (8 * Z.of_nat n + 8) in * by lia. rewrite Z.pow_add_r in * by lia. change (2 ^ 8) with 256 in *.
  pose proof (H 0%nat ltac:(lia)) as H0. change (2 ^ (8 * Z.of_nat 0)) with 1 in H0. rewrite !Z.div_1_r in H0.
  rewrite (Z.div_mod x 256), (Z.div_mod y 256) by lia. rewrite H0. f_equal. f_equal. apply IH.
  - split; [apply Z.div_pos; lia |]. apply Z.div_lt_upper_bound; lia.
  - split; [apply Z.div_pos; lia |]. apply Z.div_lt_upper_bound; lia.
  - intros k Hk. specialize (H (S k) ltac:(lia)). replace (8 * Z.of_nat (S k)) with (8 + 8 * Z.of_nat k) in H by lia.
    rewrite Z.pow_add_r in H by lia. change (2 ^ 8) with 256 in H. rewrite <- !Z.div_div in H by (try apply pow2_pos; lia). exact H.
Qed.
Lemma fetched_load h : byte_mem (hm h) -> fetched h (load_le (hm h) (hpc h) 4).
Proof.
  intros M. split; [exact (load_le_range (hm h) (hpc h) 4 M) |]. intros k Hk.
  pose proof (load_le_byte (hm h) 4 M (hpc h) (Z.to_nat k) ltac:(lia)) as B. rewrite Z2Nat.id in B by lia. exact B.
Qed.
Lemma fetched_unique h x y : fetched h x -> fetched h y -> x = y.
Proof.
  intros [X A] [Y B]. apply (bytes_eq 4); [exact X | exact Y |]. intros k Hk. rewrite A, B by lia. reflexivity.
Qed.
Definition no_cache : cache := fun _ => None.
Section Run.
Variables (I : implementation) (misa max : Z).
Hypothesis HI : In I simulators.
Let S := im_sim I.
Let xlen := s_xlen S.
Let has_c := negb (Z.land misa 4 =? 0).
Let step := steps_to xlen has_c max (ds_manual (im_32 I)) (ds_manual (im_16 I)).
Let run := runs xlen has_c max (ds_manual (im_32 I)) (ds_manual (im_16 I)).

Let covers := covered_state xlen has_c max (im_32 I) (im_16 I) (im_broken I).
Let covers_run := covered_run xlen has_c max (im_32 I) (im_16 I) (im_broken I).
Lemma set_pc_same h : hart_ok xlen h -> set_pc (s_xlen S) h (hpc h) = h.
Proof. intros [_ _ _ P _ _]. unfold set_pc. rewrite wrap_id by exact P. destruct h; reflexivity. Qed.
Lemma unchanged_refl h : unchanged h h.
Proof. split; [intros n; reflexivity |]. split; [split; reflexivity |]. split; [intros a; reflexivity | reflexivity]. Qed.

Lemma check_ok_addr h : hart_ok xlen h -> has_c = true \/ hpc h mod 4 = 0 ->
  check_address misa max (hpc h) = if max <? hpc h then Some (fetch_fault (hpc h)) else None.
Proof.
  intros [_ _ _ _ E _] A. unfold check_address.
  replace (Z.odd (hpc h)) with false.
  2:{ rewrite Zmod_odd in E. destruct (Z.odd (hpc h)); [discriminate E | reflexivity]. }
  rewrite land3. unfold has_c in A.
  replace ((Z.land misa 4 =? 0) && negb (hpc h mod 4 =? 0)) with false.
  2:{ destruct (Z.land misa 4 =? 0); [| reflexivity]. destruct A as [A | ->]; [discriminate A | reflexivity]. }
  reflexivity.
Qed.

Lemma word_step h iw : hart_ok xlen h -> covers h -> hpc h <= max -> fetched h iw ->
  (exists out, sim_word S 64 (Some misa) max h iw out) /\
  (forall out, sim_word S 64 (Some misa) max h iw out -> step h out /\ forall h', out = Done h' -> hart_ok xlen h') /\
  (forall o, sim_decodes S iw o -> exec_opcode S 64 (Some misa) max h iw o <> None).
Proof.
  intros OK [_ CV] LE F. destruct (CV LE iw F) as [[(m & i & (e & He & Me & <-) & Hi & NM & NB & ND) LT] | [NM NE]].
  - destruct (word_good I iw HI (proj1 F) misa max h e i OK He Me Hi NM NB ND) as [(o & A) G].
    split; [| split].
    + destruct (G o A) as (out & _ & _ & _ & X). exists out. left. exists o. split; [exact A | exact (X LT)].
    + intros out [(o' & A' & E) | [N _]]; [| exfalso; exact (N o A)].
      destruct (G o' A') as (out' & _ & X & K & X64). assert (Y : exec_opcode S 64 (Some misa) max h iw o' = Some out') by exact (X64 LT).
      rewrite Y in E. apply Some_inj in E. subst out'.
      split; [| exact K]. apply (st_instr _ _ _ _ _ h out iw e i); try assumption.
      unfold im_spec, spec_of in He. destruct (long iw); exact He.
    + intros o' A'. destruct (G o' A') as (out' & _ & _ & _ & X64). assert (Y : exec_opcode S 64 (Some misa) max h iw o' = Some out') by exact (X64 LT).
      rewrite Y. discriminate.
  - pose proof (word_illegal I iw HI (proj1 F) NM NE) as N.
    split; [exists (illegal_instruction h); right; split; [exact N | reflexivity] |]. split.
    + intros out [(o & A & _) | [_ ->]]; [exfalso; exact (N o A) |]. split; [| discriminate].
      apply (st_illegal _ _ _ _ _ h _ iw); [exact LE | exact F | |].
      * intros e He. apply NM. unfold im_spec, spec_of. destruct (long iw); exact He.
      * exists h. split; [reflexivity | apply unchanged_refl].
    + intros o A. exfalso. exact (N o A).
Qed.

Definition coherent (n : nat) (h : hart) (c : cache) : Prop :=
  forall a x, c a = Some x -> forall j h', (j < n)%nat -> run j h (Done h') -> hpc h' = a -> fetched h' x.

Lemma covered_step n h h1 : covers_run (Datatypes.S n) h -> step h (Done h1) -> covers_run n h1.
Proof.
  intros [A B] ST. split.
  - intros j h' L R. apply (A (Datatypes.S j) h'); [lia |]. eapply runs_step; eassumption.
  - intros j k h' h2 L R R2 E x F. apply (B (Datatypes.S j) k h' h2) with (iw := x); try assumption; [lia |]. eapply runs_step; eassumption.
Qed.
Lemma coherent_word n h c : byte_mem (hm h) -> coherent (Datatypes.S n) h c -> fetched h (cached_word c h (hpc h)).
Proof.
  intros M C. unfold cached_word. destruct (c (hpc h)) as [x |] eqn:E; [| apply fetched_load, M].
  apply (C (hpc h) x E 0%nat h); [lia | apply runs_end | reflexivity].
Qed.
Lemma coherent_step n h c c' h1 : byte_mem (hm h) -> covers_run (Datatypes.S n) h -> coherent (Datatypes.S n) h c ->
  cache_after c h (hpc h) c' -> step h (Done h1) -> coherent n h1 c'.
Proof.
  intros M [_ B] C [C0 C1] ST a x E j h' L R HP.
  assert (R' : run (Datatypes.S j) h (Done h')) by (eapply runs_step; eassumption).
  destruct (Z.eq_dec a (hpc h)) as [-> | NE].
  - destruct C0 as [C0 | C0]; rewrite C0 in E; [| discriminate E]. apply Some_inj in E. subst x.
    apply (B 0%nat (Datatypes.S j) h h'); [lia | apply runs_end | exact R' | exact HP |]. apply (coherent_word n); assumption.
  - destruct (C1 a NE) as [C1' | C1']; rewrite C1' in E; [| discriminate E].
    apply (C a x E (Datatypes.S j) h'); [lia | exact R' | exact HP].
Qed.

Lemma run_sound : forall n h c res, hart_ok xlen h -> covers_run n h -> coherent n h c ->
  top_run S misa max n (hpc h) h c res -> exists out, res = Ran out /\ run n h out.
Proof.
  induction n as [| n IH]; intros h c res OK CR CO T.
  - inversion T; subst. rewrite (set_pc_same h OK). eexists. split; [reflexivity | apply runs_end].
  - pose proof (proj1 CR 0%nat h ltac:(lia) (runs_end _ _ _ _ _ h)) as CV.
    pose proof (check_ok_addr h OK (proj1 CV)) as CA.
    pose proof (set_pc_same h OK) as SP.
    destruct (Z.ltb_spec max (hpc h)) as [GT | LE].
    + assert (FS : forall t, Some (fetch_fault (hpc h)) = Some t -> exists out, Ran (Raise t h) = Ran out /\ run (Datatypes.S n) h out).
      { intros t E. apply Some_inj in E. subst t. eexists. split; [reflexivity |]. apply runs_trap. apply st_fault; [exact GT |].
        exists h. split; [reflexivity | apply unchanged_refl]. }
      inversion T; subst; try (rewrite CA in *; discriminate).
      * rewrite SP. apply FS. rewrite <- CA. assumption.
    + assert (F : fetched h (cached_word c h (hpc h))) by (apply (coherent_word n); [apply OK | exact CO]).
      destruct (word_step h _ OK CV LE F) as (_ & G & U).
      inversion T; subst.
      * exfalso. destruct OK as [_ _ _ P _ _]. unfold xlen in P. lia.
      * rewrite CA in *. discriminate.
      * exfalso. rewrite SP in *. eapply U; eassumption.
      * rewrite SP in *. destruct (G _ ltac:(eassumption)) as [ST _].
        eexists. split; [reflexivity |]. apply runs_trap. exact ST.
      * rewrite SP in *. destruct (G _ ltac:(eassumption)) as [ST OK'].
        destruct (IH h' c' res (OK' h' eq_refl)) as (out & E & R); [| | assumption |].
        -- eapply covered_step; eassumption.
        -- eapply coherent_step; try eassumption. apply OK.
        -- exists out. split; [exact E |]. eapply runs_step; eassumption.
Qed.

Lemma run_exists : forall n h c, hart_ok xlen h -> covers_run n h -> coherent n h c ->
  exists res, top_run S misa max n (hpc h) h c res.
Proof.
  induction n as [| n IH]; intros h c OK CR CO.
  - eexists. apply run_end.
  - pose proof (proj1 CR 0%nat h ltac:(lia) (runs_end _ _ _ _ _ h)) as CV.
    pose proof (check_ok_addr h OK (proj1 CV)) as CA.
    pose proof (set_pc_same h OK) as SP.
    assert (P : hpc h < 2 ^ s_xlen S) by (destruct OK; assumption || (unfold xlen in *; lia)).
    destruct (Z.ltb_spec max (hpc h)) as [GT | LE].
    + eexists. apply run_fault; exact CA.
    + assert (F : fetched h (cached_word c h (hpc h))) by (apply (coherent_word n); [apply OK | exact CO]).
      destruct (word_step h _ OK CV LE F) as ((out & X) & G & _).
      destruct (G out X) as [ST OK'].
      assert (X' : sim_word S 64 (Some misa) max (set_pc (s_xlen S) h (hpc h)) (cached_word c h (hpc h)) out) by (rewrite SP; exact X).
      destruct out as [h' | t h'].
      * set (c' := fun a => if a =? hpc h then Some (cached_word c h (hpc h)) else c a).
        assert (CF : cache_after c h (hpc h) c').
        { split; [left; unfold c'; rewrite Z.eqb_refl; reflexivity |]. intros b NE. left. unfold c'.
          apply Z.eqb_neq in NE. rewrite NE. reflexivity. }
        destruct (IH h' c' (OK' h' eq_refl)) as (res & R).
        -- eapply covered_step; eassumption.
        -- eapply coherent_step; try eassumption. apply OK.
        -- exists res. eapply run_step; eassumption.
      * eexists. eapply run_trap; eassumption.
Qed.
End Run.
