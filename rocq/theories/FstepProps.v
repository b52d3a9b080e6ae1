(** Theorems C93: an F or D computational instruction word does to the registers, fcsr and the pc what the manual says. *)
From Coq Require Import ZArith List String Bool Lia.
From Verif Require Import Bits FmtSpec FmtModel DecSpec DecManual DecModel DecCheck DecTables Memory AccessSpec AccessModel
  StepSpec StepModel StepCheck StepProofs StepTables StepEval IeeeSpec FpSpec FarithSpec FstepSpec IntModel FpModel FpProofs FpProps FarithModel FarithProps
  FstepModel FstepProofs FstepTables.
Import ListNotations.
Local Open Scope string_scope.
Local Open Scope Z_scope.

(** The word [w] is the instruction [i] (mnemonic [m]) of the manual of the simulator. *)
Definition encodes_comp (I : implementation) (w : Z) (m : string) (i : comp) : Prop :=
  In (m, i) (instructions (s_xlen (im_sim I))) /\
  exists e, In e (ds_manual (im_spec I w)) /\ mnemonic e = m /\ means e (word_of w).
Lemma word_is_ok I w m i : In (m, i) (instructions (s_xlen (im_sim I))) -> word_is (im_spec I w) m (word_of w) = true -> encodes_comp I w m i.
Proof.
  intros H. unfold word_is. rewrite existsb_exists. intros (e & He & E). apply andb_true_iff in E. rewrite String.eqb_eq, conds_ok in E.
  split; [exact H |]. exists e. tauto.
Qed.
(** frm holds one of the five modes, or a reserved value. *)
Definition frm_ok (frm : option Z) : Prop := forall m, frm = Some m -> 0 <= m <= 4.

Lemma rounding_mode frm w m : frm_ok frm -> rounding frm w = Some m -> mode_of frm (rm_of w) m /\ 0 <= m <= 4.
Proof.
  intros F R. pose proof (bits_range w 14 12 ltac:(lia)) as B. fold (rm_of w) in B. change (2 ^ (14 - 12 + 1)) with 8 in B.
  unfold rounding in R. unfold mode_of. destruct (Z.eqb_spec (rm_of w) 7) as [E | E].
  - split; [split; [lia | exact R] | exact (F m R)].
  - destruct (Z.leb_spec (rm_of w) 4) as [L | L]; [| discriminate R]. injection R as <-. split; [split; [lia | reflexivity] | lia].
Qed.

(** For the simulators RV32G, RV64G, RV32GV and RV64GV on a host that follows IEEE 754: every word of every listed
    instruction, with any registers, in every state with FS Dirty and a rounding mode that is not reserved, except for
    the operands not in [settled]: some opcode is decoded, and whichever it is the outcome is the one
    [fp_executes] describes.  Missing: FS Off, Initial or Clean and reserved rounding modes (refuted below); operands
    outside [settled] (refuted in FpProps.v and FarithProps.v). *)
Theorem fp_step_correct_partial : forall I B h w m i, In I fp_simulators ->
  let S := im_sim I in let xlen := s_xlen S in
  host_ok (b_host B) -> hart_ok xlen (fh h) -> hfs (fh h) = 3 -> frm_ok (h_frm h) -> 0 <= w < 2 ^ 32 ->
  encodes_comp I w m i -> (has_rm i = true -> no_rounding (h_frm h) w = false) ->
  settled (b_wide B) (b_wrapv B) (b_canon B) xlen i (mode_used (h_frm h) w) (arg1 i w (fh h)) (arg2 w (fh h)) (arg3 w (fh h)) ->
  (exists o, sim_decodes S w o) /\
  forall o, sim_decodes S w o -> exists out, fp_exec B S h w o = Some out /\ fp_executes xlen i w h out /\
    forall h', out = FDone h' -> hart_ok xlen (fh h').
Proof.
  cbv zeta. intros I B h w m i HI HH OK FS FR Hw [Hm (e & He & Em & Me)] NR ST.
  destruct (word_row I w HI Hw m i e Hm He Em Me) as (_ & EX & RW). split; [exact EX |]. intros o A.
  destruct (RW o A) as (ir & R & RO). set (xl := s_xlen (im_sim I)) in *.
  assert (XL : xl = 32 \/ xl = 64) by exact (proj1 (sim_cases I (fp_simulators_in I HI))).
  assert (LC : listed_comp xl i) by (exists m; exact Hm).
  pose proof (row_exec B (im_sim I) ir i h w o R RO (ok_zero _ _ OK)) as E. fold xl in E.
  assert (MO : has_rm i = true -> mode_of (h_frm h) (rm_of w) (mode_used (h_frm h) w) /\ 0 <= mode_used (h_frm h) w <= 4).
  { intros M. specialize (NR M). unfold no_rounding in NR. unfold mode_used. destruct (rounding (h_frm h) w) as [k |] eqn:Q; [| discriminate NR].
    exact (rounding_mode _ _ _ FR Q). }
  destruct (value_ok B xl i (h_frm h) (rm_of w) (mode_used (h_frm h) w) (arg1 i w (fh h)) (arg2 w (fh h)) (arg3 w (fh h)) (old_value i w (fh h)) HH XL LC MO ST)
    as (d & fl & V & P).
  { unfold arg1. destruct (x_source i); [apply (ok_x _ _ OK) | exact (ok_f _ _ OK _)]. }
  { exact (ok_f _ _ OK _). } { exact (ok_f _ _ OK _). }
  { unfold old_value. destruct (x_target i); [apply (ok_x _ _ OK) | exact (ok_f _ _ OK _)]. }
  rewrite V in E. exists (FDone (done_with xl h (written i w (fh h) d) fl)). split; [exact E |].
  pose proof (written_ok I w i h d fl FS) as WO. fold xl in WO. cbv zeta in WO. split.
  - unfold fp_executes. replace (hfs (fh h) =? 0) with false by (rewrite FS; reflexivity). cbn [orb].
    replace (has_rm i && no_rounding (h_frm h) w) with false by (destruct (has_rm i); [rewrite (NR eq_refl) |]; reflexivity).
    exists d, fl, (done_with xl h (written i w (fh h) d) fl). split; [exact P |]. split; [reflexivity | exact WO].
  - intros h' X. injection X as <-. destruct WO as (_ & _ & KM & PC & WR). set (h' := done_with _ _ _ _) in *.
    pose proof (result_range xl i _ _ _ _ d fl XL LC P) as DR.
    assert (P2 : 0 < 2 ^ xl) by (apply pow2_pos; destruct XL; lia).
    assert (RX : hx (fh h') 0 = 0 /\ (forall n, 0 <= hx (fh h') n < 2 ^ xl) /\ (forall n, 0 <= hf (fh h') n < 2 ^ 64)).
    { destruct (x_target i).
      - destruct WR as ((W1 & W2 & W3) & KF & _). repeat apply conj.
        + destruct (Z.eq_dec (rd_of w) 0) as [Z0 | NZ]; [rewrite (W2 Z0) | rewrite W3 by auto]; exact (ok_zero _ _ OK).
        + intros n. destruct (Z.eq_dec n (rd_of w)) as [-> | NE]; [| rewrite (W3 n NE); apply (ok_x _ _ OK)].
          destruct (Z.eq_dec (rd_of w) 0) as [Z0 | NZ]; [| rewrite (W1 NZ); exact DR]. rewrite Z0, (W2 Z0). apply (ok_x _ _ OK).
        + intros n. rewrite KF. apply (ok_f _ _ OK).
      - destruct WR as (KX & (W1 & W2 & _)). repeat apply conj.
        + rewrite KX. exact (ok_zero _ _ OK).
        + intros n. rewrite KX. apply (ok_x _ _ OK).
        + intros n. destruct (Z.eq_dec n (rd_of w)) as [-> | NE]; [rewrite W1; exact DR | rewrite (W2 n NE); apply (ok_f _ _ OK)]. }
    destruct RX as (R0 & R1 & R2). split; try assumption.
    + rewrite PC. apply Z.mod_pos_bound. exact P2.
    + rewrite PC. assert (EV : forall x, x mod 2 = 0 -> (x mod 2 ^ xl) mod 2 = 0).
      { intros x Hx. rewrite <- Znumtheory.Zmod_div_mod; [exact Hx | lia | exact P2 |]. exists (2 ^ (xl - 1)). destruct XL as [-> | ->]; reflexivity. }
      apply EV. rewrite Z.add_mod, (ok_even _ _ OK) by lia. reflexivity.
    + intros a. rewrite KM. apply (ok_m _ _ OK).
Qed.
Print Assumptions fp_step_correct_partial.

(** Every listed mnemonic is in the manual of the simulator: 48 on RV32, 58 on RV64. *)
Theorem fp_words_exist : forall I m i, In I fp_simulators -> In (m, i) (instructions (s_xlen (im_sim I))) ->
  exists e, In e (ds_manual (im_32 I)) /\ mnemonic e = m.
Proof.
  intros I m i HI H. pose proof tables_fp as T. rewrite forallb_forall in T. specialize (T I HI). unfold table_fp in T. rewrite forallb_forall in T.
  specialize (T (m, i) H). apply andb_true_iff in T. destruct T as [T _]. apply andb_true_iff in T. destruct T as [_ T].
  apply existsb_exists in T. destruct T as (e & He & E). exists e. split; [exact He | apply String.eqb_eq; exact E].
Qed.
Print Assumptions fp_words_exist.

(** The state with x registers [xs] (from x1), f registers [fs] (from f0), FS [st] and frm [frm]. *)
Definition fstate (xs fs : list Z) (st : Z) (frm : option Z) : fhart :=
  {| fh := {| hx := hx (hart_at 0x1000 xs st []); hf := fun n => if n <? 0 then 0 else nth (Z.to_nat n) fs 0; hpc := 0x1000;
              hm := hm (hart_at 0x1000 xs st []); hfs := st |}; h_frm := frm; h_flags := 0 |}.
Lemma fstate_ok xl xs fs st frm : xl = 32 \/ xl = 64 -> forallb (fun v => (0 <=? v) && (v <? 2 ^ xl)) xs = true ->
  forallb (fun v => (0 <=? v) && (v <? 2 ^ 64)) fs = true -> hart_ok xl (fh (fstate xs fs st frm)).
Proof.
  intros XL HX HF. assert (K : hart_ok xl (hart_at 0x1000 xs st [])).
  { apply hart_at_ok; [destruct XL; lia | exact HX | destruct XL as [-> | ->]; lia | reflexivity]. }
  split; cbn [fstate fh hx hf hpc hm]; try apply K.
  intros n. destruct (n <? 0); [lia |]. rewrite forallb_forall in HF. destruct (nth_in_or_default (Z.to_nat n) fs 0) as [Q | ->]; [| lia].
  specialize (HF _ Q). apply andb_true_iff in HF. destruct HF as [Q1 Q2]. apply Z.leb_le in Q1. apply Z.ltb_lt in Q2. split; assumption.
Qed.
Definition fp_rv64g := impl sim_RV64G s_RiscV64G s_RiscV64C ["c.fld"].
Lemma fp_rv64g_in : In fp_rv64g fp_simulators. Proof. right. left. reflexivity. Qed.
Definition x86_build : build := {| b_host := x86_host; b_wide := false; b_wrapv := true; b_canon := canonical_nan single |}.

(** The value the semantic function returns, in an equation about [fp_exec]. *)
Ltac evaluates E r := match type of E with _ = match ?v with _ => _ end =>
  let V := fresh in assert (V : v = r) by (vm_compute; reflexivity); rewrite V in E; clear V end.
(** fdiv.s f1, f2, f3, rne on RV64G: 1 / 3, inexact. *)
Example fp_step_case : let h := fstate [] [0; 0; 0xffffffff3f800000; 0xffffffff40400000] 3 (Some 0) in
  hart_ok 64 (fh h) /\ encodes_comp fp_rv64g 0x183100d3 "fdiv.s" (Ca (ADiv single)) /\ host_ok (b_host x86_build) /\
  no_rounding (h_frm h) 0x183100d3 = false /\
  settled false true (canonical_nan single) 64 (Ca (ADiv single)) (mode_used (h_frm h) 0x183100d3)
    (arg1 (Ca (ADiv single)) 0x183100d3 (fh h)) (arg2 0x183100d3 (fh h)) (arg3 0x183100d3 (fh h)) /\
  exists out, fp_exec x86_build sim_RV64G h 0x183100d3 "fdiv_s" = Some (FDone out) /\ hf (fh out) 1 = 0xffffffff3eaaaaab /\ h_flags out = fNX.
Proof.
  cbv zeta. split; [apply fstate_ok; [right; reflexivity | reflexivity | vm_compute; reflexivity] |].
  split; [apply word_is_ok; [vm_compute; do 3 right; left; reflexivity | vm_compute; reflexivity] |].
  split; [exact x86_host_is_ok |]. split; [reflexivity |]. split; [vm_compute; discriminate |].
  pose proof (row_exec x86_build sim_RV64G (mk_irow "fdiv_s" 4 ["Frs1"; "Frs2"; "Rm"] ["Frd"] "RiscVFDiv" "") (Ca (ADiv single))
    (fstate [] [0; 0; 0xffffffff3f800000; 0xffffffff40400000] 3 (Some 0)) 0x183100d3 "fdiv_s" eq_refl eq_refl eq_refl) as E.
  evaluates E (Some (Wrote 0xffffffff3eaaaaab fNX)).
  eexists. split; [exact E |]. split; vm_compute; reflexivity.
Qed.

(** What goes wrong outside: the word is the instruction, it is decoded, and for every opcode decoded the outcome, if
    there is one, is not the manual's. *)
Definition fp_wrong (I : implementation) (B : build) (h : fhart) (w : Z) (m : string) (i : comp) : Prop :=
  encodes_comp I w m i /\ (exists o, sim_decodes (im_sim I) w o) /\
  forall o, sim_decodes (im_sim I) w o -> exists out, fp_exec B (im_sim I) h w o = Some out /\ ~ fp_executes (s_xlen (im_sim I)) i w h out.

(** None of these instructions ever raises an exception: executed with FS Off or a reserved rounding mode, none has the
    outcome of the manual. *)
Theorem fp_illegal_refuted :
  (forall I B h w m i o out, In I fp_simulators -> hart_ok (s_xlen (im_sim I)) (fh h) -> 0 <= w < 2 ^ 32 -> encodes_comp I w m i ->
     hfs (fh h) = 0 \/ has_rm i = true /\ no_rounding (h_frm h) w = true ->
     sim_decodes (im_sim I) w o -> fp_exec B (im_sim I) h w o = Some out -> ~ fp_executes (s_xlen (im_sim I)) i w h out) /\
  (* fmv.w.x f1, x2 with FS Off *)
  (exists h, hart_ok 64 (fh h) /\ hfs (fh h) = 0 /\ forall B, fp_wrong fp_rv64g B h 0xf00100d3 "fmv.w.x" (Cf (FMvFX single))) /\
  (* fadd.s f1, f2, f3 with the dynamic rounding mode while frm is reserved: nothing happens *)
  (exists h, hart_ok 64 (fh h) /\ hfs (fh h) = 3 /\ h_frm h = None /\ forall B, fp_wrong fp_rv64g B h 0x003170d3 "fadd.s" (Ca (AAdd single))).
Proof.
  assert (G : forall I B h w m i o out, In I fp_simulators -> hart_ok (s_xlen (im_sim I)) (fh h) -> 0 <= w < 2 ^ 32 -> encodes_comp I w m i ->
     hfs (fh h) = 0 \/ has_rm i = true /\ no_rounding (h_frm h) w = true ->
     sim_decodes (im_sim I) w o -> fp_exec B (im_sim I) h w o = Some out -> ~ fp_executes (s_xlen (im_sim I)) i w h out).
  { intros I B h w m i o out HI OK Hw [Hm (e & He & Em & Me)] ILL A X F.
    destruct (word_row I w HI Hw m i e Hm He Em Me) as (_ & _ & RW). destruct (RW o A) as (ir & R & RO).
    rewrite (row_exec B (im_sim I) ir i h w o R RO (ok_zero _ _ OK)) in X. unfold fp_executes in F.
    replace ((hfs (fh h) =? 0) || (has_rm i && no_rounding (h_frm h) w)) with true in F.
    2:{ destruct ILL as [-> | [-> ->]]; [reflexivity |]. rewrite orb_true_r. reflexivity. }
    destruct F as (h' & -> & _). destruct (value_exec _ _ _ _ _ _ _ _ _) as [[| v fl] |]; discriminate X. }
  split; [exact G |]. split.
  - exists (fstate [0; 7] [] 0 (Some 0)). assert (OK : hart_ok 64 (fh (fstate [0; 7] [] 0 (Some 0)))) by (apply fstate_ok; [right; reflexivity | reflexivity | reflexivity]).
    split; [exact OK |]. split; [reflexivity |]. intros B.
    assert (EC : encodes_comp fp_rv64g 0xf00100d3 "fmv.w.x" (Cf (FMvFX single))).
    { apply word_is_ok; [vm_compute; do 45 right; left; reflexivity | vm_compute; reflexivity]. }
    split; [exact EC |]. destruct EC as [Hm (e & He & Em & Me)].
    destruct (word_row fp_rv64g 0xf00100d3 fp_rv64g_in ltac:(lia) _ _ e Hm He Em Me) as (_ & EX & RW). split; [exact EX |]. intros o A.
    destruct (RW o A) as (ir & R & RO).
    assert (X : exists out, fp_exec B (im_sim fp_rv64g) (fstate [0; 7] [] 0 (Some 0)) 0xf00100d3 o = Some out).
    { pose proof (row_exec B (im_sim fp_rv64g) ir _ _ 0xf00100d3 o R RO (ok_zero _ _ OK)) as X. evaluates X (Some (Wrote 0xffffffff00000007 0)).
      eexists. exact X. }
    destruct X as [out X]. exists out. split; [exact X |].
    apply (G fp_rv64g B _ 0xf00100d3 "fmv.w.x" _ o out fp_rv64g_in OK ltac:(lia) (conj Hm (ex_intro _ e (conj He (conj Em Me))))); [left; reflexivity | exact A | exact X].
  - exists (fstate [] [] 3 None). assert (OK : hart_ok 64 (fh (fstate [] [] 3 None))) by (apply fstate_ok; [right; reflexivity | reflexivity | reflexivity]).
    split; [exact OK |]. split; [reflexivity |]. split; [reflexivity |]. intros B.
    assert (EC : encodes_comp fp_rv64g 0x003170d3 "fadd.s" (Ca (AAdd single))).
    { apply word_is_ok; [vm_compute; left; reflexivity | vm_compute; reflexivity]. }
    split; [exact EC |]. destruct EC as [Hm (e & He & Em & Me)].
    destruct (word_row fp_rv64g 0x003170d3 fp_rv64g_in ltac:(lia) _ _ e Hm He Em Me) as (_ & EX & RW). split; [exact EX |]. intros o A.
    destruct (RW o A) as (ir & R & RO).
    assert (X : exists out, fp_exec B (im_sim fp_rv64g) (fstate [] [] 3 None) 0x003170d3 o = Some out).
    { pose proof (row_exec B (im_sim fp_rv64g) ir _ _ 0x003170d3 o R RO (ok_zero _ _ OK)) as X. evaluates X (Some Nothing).
      eexists. exact X. }
    destruct X as [out X]. exists out. split; [exact X |].
    apply (G fp_rv64g B _ 0x003170d3 "fadd.s" _ o out fp_rv64g_in OK ltac:(lia) (conj Hm (ex_intro _ e (conj He (conj Em Me))))); [right; split; reflexivity | exact A | exact X].
Qed.
Print Assumptions fp_illegal_refuted.

(** FS stays Clean when an f register is written: fmv.w.x f1, x2 with FS Clean. *)
Theorem fp_dirty_refuted : exists h, hart_ok 64 (fh h) /\ hfs (fh h) = 2 /\ forall B, fp_wrong fp_rv64g B h 0xf00100d3 "fmv.w.x" (Cf (FMvFX single)).
Proof.
  exists (fstate [0; 7] [] 2 (Some 0)). assert (OK : hart_ok 64 (fh (fstate [0; 7] [] 2 (Some 0)))) by (apply fstate_ok; [right; reflexivity | reflexivity | reflexivity]).
  split; [exact OK |]. split; [reflexivity |]. intros B.
  assert (EC : encodes_comp fp_rv64g 0xf00100d3 "fmv.w.x" (Cf (FMvFX single))).
  { apply word_is_ok; [vm_compute; do 45 right; left; reflexivity | vm_compute; reflexivity]. }
  split; [exact EC |]. destruct EC as [Hm (e & He & Em & Me)].
  destruct (word_row fp_rv64g 0xf00100d3 fp_rv64g_in ltac:(lia) _ _ e Hm He Em Me) as (_ & EX & RW). split; [exact EX |]. intros o A.
  destruct (RW o A) as (ir & R & RO).
  pose proof (row_exec B (im_sim fp_rv64g) ir _ (fstate [0; 7] [] 2 (Some 0)) 0xf00100d3 o R RO (ok_zero _ _ OK)) as X.
  evaluates X (Some (Wrote 0xffffffff00000007 0)).
  eexists. split; [exact X |]. unfold fp_executes. cbn [fstate fh hfs]. change (2 =? 0) with false. cbn [has_rm andb orb x_target].
  intros (d & fl & h' & _ & E & _ & _ & _ & _ & _ & _ & _ & FS). injection E as <-. discriminate FS.
Qed.
Print Assumptions fp_dirty_refuted.
