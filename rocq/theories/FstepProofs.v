(** Proof devices for C93: rows compared with instructions, and the value-level theorems put together. *)
From Coq Require Import ZArith List String Bool Lia.
From Verif Require Import Bits FmtSpec FmtModel FmtLink FmtProofs DecSpec DecManual DecModel DecCheck DecTables DecProps IntSpec Memory AccessSpec AccessModel
  StepSpec StepModel StepCheck StepProofs StepTables IeeeSpec FpSpec FarithSpec FstepSpec IntModel FpModel FpProps FpProofs FarithModel FarithProps FstepModel.
Import ListNotations.
Local Open Scope string_scope.
Local Open Scope Z_scope.

(** ** Fields *)
Lemma gather_field hi lo l w : 0 <= lo -> lo <= hi -> len l = hi - lo + 1 ->
  (forall i, 0 <= i < hi - lo + 1 -> src_at l i = Some (SB (lo + i))) -> gather l w = bits w (hi, lo).
Proof.
  intros L0 LH LN SA. unfold bits. cbn [fst snd]. pose proof (gather_range l w) as G. rewrite LN in G.
  apply (inw_eq_bits (hi - lo + 1)); [lia | exact G | apply Z.mod_pos_bound; apply pow2_pos; lia |].
  intros i Hi. rewrite gather_bit, (SA i Hi). cbn [src_bit]. rewrite Z.mod_pow2_bits_low by lia.
  rewrite <- Z.shiftr_div_pow2 by lia. rewrite Z.shiftr_spec by lia. f_equal. lia.
Qed.
Ltac five i := assert (i = 0 \/ i = 1 \/ i = 2 \/ i = 3 \/ i = 4) as C by lia;
  destruct C as [-> | [-> | [-> | [-> | ->]]]]; reflexivity.
Lemma field_rd w : extract f_RType "rd" w = rd_of w.
Proof. unfold extract. change (layout f_RType "rd") with (Some (false, 5, [SB 11; SB 10; SB 9; SB 8; SB 7])). cbv iota.
  apply gather_field; try lia; [reflexivity |]. intros i Hi. five i. Qed.
Lemma field_rs1 w : extract f_RType "rs1" w = rs1_of w.
Proof. unfold extract. change (layout f_RType "rs1") with (Some (false, 5, [SB 19; SB 18; SB 17; SB 16; SB 15])). cbv iota.
  apply gather_field; try lia; [reflexivity |]. intros i Hi. five i. Qed.
Lemma field_rs2 w : extract f_RType "rs2" w = rs2_of w.
Proof. unfold extract. change (layout f_RType "rs2") with (Some (false, 5, [SB 24; SB 23; SB 22; SB 21; SB 20])). cbv iota.
  apply gather_field; try lia; [reflexivity |]. intros i Hi. five i. Qed.
Lemma field_rs3 w : extract f_R4Type "rs3" w = rs3_of w.
Proof. unfold extract. change (layout f_R4Type "rs3") with (Some (false, 5, [SB 31; SB 30; SB 29; SB 28; SB 27])). cbv iota.
  apply gather_field; try lia; [reflexivity |]. intros i Hi. five i. Qed.
Lemma field_rm w : extract f_RType "func3" w = rm_of w.
Proof. unfold extract. change (layout f_RType "func3") with (Some (false, 3, [SB 14; SB 13; SB 12])). cbv iota.
  apply gather_field; try lia; [reflexivity |]. intros i Hi. assert (i = 0 \/ i = 1 \/ i = 2) as C by lia. destruct C as [-> | [-> | ->]]; reflexivity. Qed.
Lemma same_field o fm fld fm0 fld0 w : agrees o fm fld = true -> agrees o fm0 fld0 = true -> extract fm fld w = extract fm0 fld0 w.
Proof. intros A B. exact (encodes_unique_lemma o fm fld w _ _ A (extract_encodes o fm fld w A) (extract_encodes o fm0 fld0 w B)). Qed.
Lemma bits_range w hi lo : lo <= hi -> 0 <= bits w (hi, lo) < 2 ^ (hi - lo + 1).
Proof. intros L. apply Z.mod_pos_bound. apply pow2_pos. cbn [fst snd]. lia. Qed.

(** ** Rows *)
Inductive want := W1 | W2 | W3 | X1 | WM.
Definition wants (i : comp) : list want :=
  match i with
  | Ca (AAdd _ | ASub _ | AMul _ | ADiv _) => [W1; W2; WM]
  | Ca (ASqrt _ | ANarrow _ _) => [W1; WM]
  | Ca (AOfInt _ _ _) => [X1; WM]
  | Ca (AFma _ _ _) => [W1; W2; W3; WM]
  | Cf (FMin _ | FMax _ | FSgnj _ _ | FEq _ | FLt _ | FLe _) => [W1; W2]
  | Cf (FClass _ | FMvXF _ | FLoad _ _) => [W1]
  | Cf (FMvFX _) => [X1]
  | Cf (FCvtInt _ _ _ | FWiden _ _) => [W1; WM]
  end.
Definition want_value (h : hart) (w : Z) (k : want) : Z :=
  match k with
  | W1 => hf h (rs1_of w) | W2 => hf h (rs2_of w) | W3 => hf h (rs3_of w) | X1 => hx h (rs1_of w) | WM => rm_of w end.
Definition want_ok (s : StepModel.src) (k : want) : bool :=
  match s, k with
  | SFreg fm fld, W1 => agrees o_rs1 fm fld
  | SFreg fm fld, W2 => agrees o_rs2 fm fld
  | SFreg fm fld, W3 => agrees o_rs3 fm fld
  | SReg fm fld _, X1 => agrees o_rs1 fm fld
  | SImm fm fld false, WM => agrees o_rm fm fld
  | _, _ => false end.
Fixpoint wants_ok (S : simulator) (names : list string) (ks : list want) : bool :=
  match names, ks with
  | [], [] => true
  | n :: ns, k :: ks => match fp_src S n with Some s => want_ok s k | None => false end && wants_ok S ns ks
  | _, _ => false end.
Lemma want_value_ok s k h iw : hx h 0 = 0 -> want_ok s k = true -> src_value h iw s = want_value h iw k.
Proof.
  intros Z0. destruct s as [fm fld z | fm fld | fm fld [] | n | n], k; cbn [want_ok src_value want_value]; intros A; try discriminate A.
  - rewrite (same_field o_rs1 fm fld f_RType "rs1" iw A eq_refl), field_rs1. destruct z; [| reflexivity]. cbn [andb].
    destruct (Z.eqb_spec (rs1_of iw) 0) as [E | E]; [rewrite E, Z0 |]; reflexivity.
  - rewrite (same_field o_rs1 fm fld f_RType "rs1" iw A eq_refl), field_rs1. reflexivity.
  - rewrite (same_field o_rs2 fm fld f_RType "rs2" iw A eq_refl), field_rs2. reflexivity.
  - rewrite (same_field o_rs3 fm fld f_R4Type "rs3" iw A eq_refl), field_rs3. reflexivity.
  - rewrite (same_field o_rm fm fld f_RType "func3" iw A eq_refl), field_rm. apply wrap_id. unfold inw.
    pose proof (bits_range iw 14 12 ltac:(lia)) as B. fold (rm_of iw) in B. change (2 ^ (14 - 12 + 1)) with 8 in B. clear - B. lia.
Qed.
Lemma wants_value_ok S h iw : hx h 0 = 0 -> forall names ks, wants_ok S names ks = true ->
  fp_values S h iw names = Some (map (want_value h iw) ks).
Proof.
  intros Z0. induction names as [| n ns IH]; intros [| k ks]; cbn [wants_ok]; intros A; try discriminate A; [reflexivity |].
  apply andb_true_iff in A. destruct A as [A B]. cbn [fp_values map]. destruct (fp_src S n) as [s |]; [| discriminate A].
  rewrite (IH ks B), (want_value_ok s k h iw Z0 A). reflexivity.
Qed.

Definition fmt_dec : forall x y : fmt, {x = y} + {x <> y}. Proof. decide equality; apply Z.eq_dec. Defined.
Definition inj_dec : forall x y : injection, {x = y} + {x <> y}. Proof. decide equality. Defined.
Definition finst_dec : forall x y : finst, {x = y} + {x <> y}.
Proof. decide equality; first [apply fmt_dec | apply inj_dec | apply Z.eq_dec | apply bool_dec]. Defined.
Definition ainst_dec : forall x y : ainst, {x = y} + {x <> y}.
Proof. decide equality; first [apply fmt_dec | apply Z.eq_dec | apply bool_dec]. Defined.
Definition narrow_free (J : finst) : bool := match J with FMvFX f => negb (is_fmt f half) | FLoad _ _ => false | _ => true end.
Definition sem_is (s : fsem) (i : comp) (xl : Z) : bool :=
  match s, i with
  | FsF aw J, Cf J' => (if finst_dec J J' then true else false) && ((aw =? xl) || negb (x_target i)) && narrow_free J
  | FsA J, Ca J' => if ainst_dec J J' then true else false
  | _, _ => false end.
Definition target_ok (d : dst) (i : comp) : bool :=
  match d with
  | DFreg fm fld => negb (x_target i) && agrees o_rd fm fld
  | DReg fm fld z => x_target i && z && agrees o_rd fm fld
  | _ => false end.
Definition row_fp (S : simulator) (ir : irow) (i : comp) : bool :=
  (i_size ir =? 4) &&
  match assoc fp_semfuncs (i_sem ir), get_dst S (i_dst ir) 0 with
  | Some s, Some d => sem_is s i (s_xlen S) && negb (sem_flags s && negb (flags_operand ir)) &&
                      wants_ok S (i_src ir) (wants i) && target_ok d i
  | _, _ => false end.

Definition value_exec (B : build) (xl : Z) (dyn : option Z) (i : comp) (rm a b c old : Z) : option FpModel.outcome :=
  match i with
  | Cf J => FpModel.exec (if b_wrapv B then Wrapv else Iso) (b_canon B) xl dyn J rm a b old
  | Ca J => a_exec (b_host B) (b_wide B) dyn J rm a b c old end.
Lemma semfunc_width m canon aw xl dyn J s old : narrow_free J = true -> x_target (Cf J) = false ->
  semfunc m canon aw dyn J s old = semfunc m canon xl dyn J s old.
Proof.
  destruct J; cbn [narrow_free x_target semfunc]; intros N X; try discriminate X; try discriminate N; try reflexivity.
  apply negb_true_iff in N. rewrite N. reflexivity.
Qed.
Lemma run_sem_ok B dyn s i xl h w old : sem_is s i xl = true ->
  run_sem B dyn s (map (want_value h w) (wants i)) old = value_exec B xl dyn i (rm_of w) (arg1 i w h) (arg2 w h) (arg3 w h) old.
Proof.
  destruct s as [aw J | J], i as [J' | J']; cbn [sem_is]; intros A; try discriminate A.
  - apply andb_true_iff in A. destruct A as [A N]. apply andb_true_iff in A. destruct A as [A X]. destruct (finst_dec J J') as [<- |]; [| discriminate A].
    cbn [run_sem value_exec]. unfold FpModel.exec.
    assert (V : map (want_value h w) (wants (Cf J)) = operands J (arg1 (Cf J) w h) (arg2 w h) (rm_of w)) by (destruct J; try reflexivity; discriminate N).
    rewrite V. apply orb_true_iff in X. destruct X as [X | X]; [apply Z.eqb_eq in X; rewrite X; reflexivity |].
    apply negb_true_iff in X. apply semfunc_width; assumption.
  - destruct (ainst_dec J J') as [<- |]; [| discriminate A]. destruct J; reflexivity.
Qed.
Lemma sem_x_ok s i xl : sem_is s i xl = true -> sem_x s = x_target i.
Proof.
  destruct s as [aw J | J], i as [J' | J']; cbn [sem_is]; intros A; try discriminate A; [| reflexivity].
  apply andb_true_iff in A. destruct A as [A _]. apply andb_true_iff in A. destruct A as [A _]. destruct (finst_dec J J') as [<- |]; [reflexivity | discriminate A].
Qed.

(** What is in the destination register before. *)
Definition old_value (i : comp) (w : Z) (h : hart) : Z := if x_target i then hx h (rd_of w) else hf h (rd_of w).
Definition done_with (xl : Z) (h : fhart) (k : hart) (fl : Z) : fhart :=
  {| fh := set_pc xl k (hpc (fh h) + 4); h_frm := h_frm h; h_flags := Z.lor (h_flags h) fl |}.
Definition written (i : comp) (w : Z) (h : hart) (v : Z) : hart :=
  if x_target i then if rd_of w =? 0 then h else set_x h (rd_of w) v else set_f h (rd_of w) v.
Lemma row_exec B S ir i h iw o : fp_row S o = Some ir -> row_fp S ir i = true -> hx (fh h) 0 = 0 ->
  fp_exec B S h iw o =
  match value_exec B (s_xlen S) (h_frm h) i (rm_of iw) (arg1 i iw (fh h)) (arg2 iw (fh h)) (arg3 iw (fh h)) (old_value i iw (fh h)) with
  | Some (Wrote v fl) => Some (FDone (done_with (s_xlen S) h (written i iw (fh h) v) fl))
  | Some Nothing => Some (FDone (done_with (s_xlen S) h (fh h) 0))
  | None => None end.
Proof.
  intros R OK Z0. unfold row_fp in OK. apply andb_true_iff in OK. destruct OK as [SZ OK]. apply Z.eqb_eq in SZ.
  unfold fp_exec. rewrite R. destruct (assoc fp_semfuncs (i_sem ir)) as [s |]; [| discriminate OK].
  destruct (get_dst S (i_dst ir) 0) as [d |]; [| discriminate OK].
  apply andb_true_iff in OK. destruct OK as [OK T]. apply andb_true_iff in OK. destruct OK as [OK W]. apply andb_true_iff in OK. destruct OK as [SI FL].
  rewrite (wants_value_ok S (fh h) iw Z0 _ _ W). cbv zeta. apply negb_true_iff in FL. rewrite FL, SZ.
  assert (OD : old_dst (fh h) iw d = old_value i iw (fh h)).
  { unfold old_dst, old_value. destruct d as [fm fld z | fm fld | n | |]; cbn [target_ok] in T; try discriminate T.
    - apply andb_true_iff in T. destruct T as [T A]. apply andb_true_iff in T. destruct T as [T _]. rewrite T. cbn [old_x].
      rewrite (same_field o_rd fm fld f_RType "rd" iw A eq_refl), field_rd. reflexivity.
    - apply andb_true_iff in T. destruct T as [T A]. apply negb_true_iff in T. rewrite T.
      rewrite (same_field o_rd fm fld f_RType "rd" iw A eq_refl), field_rd. reflexivity. }
  rewrite OD, (run_sem_ok B (h_frm h) s i (s_xlen S) (fh h) iw _ SI).
  destruct (value_exec _ _ _ _ _ _ _ _ _) as [[| v fl] |]; [| | reflexivity].
  - unfold done_with. rewrite Z.lor_0_r. reflexivity.
  - rewrite (sem_x_ok s i _ SI). unfold write_dst, written. destruct d as [fm fld z | fm fld | n | |]; cbn [target_ok] in T; try discriminate T.
    + apply andb_true_iff in T. destruct T as [T A]. apply andb_true_iff in T. destruct T as [T Zz]. rewrite T, Zz. cbn [write_x andb].
      rewrite (same_field o_rd fm fld f_RType "rd" iw A eq_refl), field_rd. reflexivity.
    + apply andb_true_iff in T. destruct T as [T A]. apply negb_true_iff in T. rewrite T.
      rewrite (same_field o_rd fm fld f_RType "rd" iw A eq_refl), field_rd. reflexivity.
Qed.

(** ** Values *)
Definition listed_comp (xl : Z) (i : comp) : Prop := exists m, In (m, i) (instructions xl).
Lemma comp_cases xl (P : comp -> Prop) :
  (forall f, f = single \/ f = double ->
     P (Ca (AAdd f)) /\ P (Ca (ASub f)) /\ P (Ca (AMul f)) /\ P (Ca (ADiv f)) /\ P (Ca (ASqrt f)) /\
     (forall np na, P (Ca (AFma f np na))) /\ P (Cf (FMin f)) /\ P (Cf (FMax f)) /\ (forall k, P (Cf (FSgnj f k))) /\
     P (Cf (FEq f)) /\ P (Cf (FLt f)) /\ P (Cf (FLe f)) /\ P (Cf (FClass f)) /\
     (forall sg w, w = 32 \/ w = 64 /\ xl = 64 -> P (Cf (FCvtInt f sg w)) /\ P (Ca (AOfInt f sg w))) /\
     (f = single \/ xl = 64 -> P (Cf (FMvXF f)) /\ P (Cf (FMvFX f)))) ->
  P (Ca (ANarrow double single)) -> P (Cf (FWiden single double)) ->
  forall i, listed_comp xl i -> P i.
Proof.
  intros A N W i (m & H). unfold instructions in H. rewrite !in_app_iff in H.
  assert (PF : forall f s, f = single \/ f = double -> In (m, i) (per_format f s) -> P i).
  { intros f s Hf. destruct (A f Hf) as (B1 & B2 & B3 & B4 & B5 & B6 & B7 & B8 & B9 & B10 & B11 & B12 & B13 & B14 & B15).
    unfold per_format. cbn [In]. intros HI.
    repeat (destruct HI as [HI | HI]; [apply pair_equal_spec in HI; destruct HI as [_ <-]; try assumption; first [apply B6 | apply B9 | apply B14; left; reflexivity] |]).
    destruct HI. }
  assert (PG : forall f s, xl = 64 -> f = single \/ f = double -> In (m, i) (per_format_64 f s) -> P i).
  { intros f s X Hf. destruct (A f Hf) as (B1 & B2 & B3 & B4 & B5 & B6 & B7 & B8 & B9 & B10 & B11 & B12 & B13 & B14 & B15).
    unfold per_format_64. cbn [In]. intros HI.
    repeat (destruct HI as [HI | HI]; [apply pair_equal_spec in HI; destruct HI as [_ <-]; apply B14; right; split; [reflexivity | exact X] |]).
    destruct HI. }
  destruct H as [H | [H | [H | H]]].
  - exact (PF single "s" (or_introl eq_refl) H).
  - exact (PF double "d" (or_intror eq_refl) H).
  - destruct (A single (or_introl eq_refl)) as (_ & _ & _ & _ & _ & _ & _ & _ & _ & _ & _ & _ & _ & _ & B15).
    cbn [In] in H. destruct H as [H | [H | [H | [H | []]]]]; apply pair_equal_spec in H; destruct H as [_ <-]; try assumption; apply B15; left; reflexivity.
  - destruct (Z.eqb_spec xl 64) as [X | X]; [| destruct H]. rewrite !in_app_iff in H. destruct H as [H | [H | H]].
    + exact (PG single "s" X (or_introl eq_refl) H).
    + exact (PG double "d" X (or_intror eq_refl) H).
    + destruct (A double (or_intror eq_refl)) as (_ & _ & _ & _ & _ & _ & _ & _ & _ & _ & _ & _ & _ & _ & B15).
      cbn [In] in H. destruct H as [H | [H | []]]; apply pair_equal_spec in H; destruct H as [_ <-]; apply B15; right; exact X.
Qed.
Lemma sd_in f : f = single \/ f = double -> In f formats. Proof. intros [-> | ->]; [right; left | right; right; left]; reflexivity. Qed.
Lemma sd_not_half f : f = single \/ f = double -> f <> half. Proof. intros [-> | ->]; discriminate. Qed.

Lemma value_ok B xl i dyn rm mode a b c old : host_ok (b_host B) -> xl = 32 \/ xl = 64 -> listed_comp xl i ->
  (has_rm i = true -> mode_of dyn rm mode /\ 0 <= mode <= 4) ->
  settled (b_wide B) (b_wrapv B) (b_canon B) xl i mode a b c ->
  (if x_source i then 0 <= a < 2 ^ xl else reg a) -> reg b -> reg c -> (if x_target i then 0 <= old < 2 ^ xl else reg old) ->
  exists d fl, value_exec B xl dyn i rm a b c old = Some (Wrote d fl) /\ prescribed xl i mode a b c d fl.
Proof.
  intros HH XL HI. revert i HI.
  apply (comp_cases xl (fun i => (has_rm i = true -> mode_of dyn rm mode /\ 0 <= mode <= 4) ->
    settled (b_wide B) (b_wrapv B) (b_canon B) xl i mode a b c ->
    (if x_source i then 0 <= a < 2 ^ xl else reg a) -> reg b -> reg c -> (if x_target i then 0 <= old < 2 ^ xl else reg old) ->
    exists d fl, value_exec B xl dyn i rm a b c old = Some (Wrote d fl) /\ prescribed xl i mode a b c d fl)).
  - intros f Hf. pose proof (sd_in f Hf) as Fi. pose proof (sd_not_half f Hf) as Nh.
    assert (AR : forall J, In J [AAdd f; ASub f; AMul f; ADiv f; ASqrt f] ->
      (has_rm (Ca J) = true -> mode_of dyn rm mode /\ 0 <= mode <= 4) -> mode <= 3 -> reg a -> reg b -> reg old ->
      exists d fl, value_exec B xl dyn (Ca J) rm a b c old = Some (Wrote d fl) /\ prescribed xl (Ca J) mode a b c d fl).
    { intros J HJ HM M3 Ha Hb Ho. destruct (HM eq_refl) as [MO [M0 _]].
      exact (arith_rounded_partial (b_host B) (b_wide B) dyn f J rm mode a b c old HH Hf HJ MO (conj M0 M3) Ha Hb Ho). }
    assert (MM : forall J, match J with FMin f' | FMax f' | FSgnj f' _ => f' = f | FEq f' | FLt f' | FLe f' => f' = f | _ => False end ->
      settled (b_wide B) (b_wrapv B) (b_canon B) xl (Cf J) mode a b c -> reg a -> reg b -> (if x_target (Cf J) then 0 <= old < 2 ^ xl else reg old) ->
      exists d fl, value_exec B xl dyn (Cf J) rm a b c old = Some (Wrote d fl) /\ prescribed xl (Cf J) mode a b c d fl).
    { intros J HJ ST Ha Hb Ho. apply (min_max_sgnj_cmp_correct_partial (if b_wrapv B then Wrapv else Iso) (b_canon B) xl dyn J rm mode a b old).
      - split; [exact XL |]. destruct J; try contradiction; subst; exact Fi.
      - destruct J; try contradiction; subst; try exact Nh; exact Logic.I.
      - exact Ha. - exact Hb.
      - unfold old_ok. destruct J; try contradiction; exact Ho.
      - intros U. destruct J as [g | g | g k | g | g | g | g | g sg w | g g' | g | g | g cc]; try contradiction; cbn [unchecked] in U; try discriminate U; subst g;
          apply andb_true_iff in U; destruct U as [U1 U2]; cbn [settled] in ST;
          assert (FS : f = single) by (destruct Hf as [E | E]; [exact E | rewrite E in U1; discriminate U1]).
        + apply ST; [exact FS |]. apply negb_true_iff in U2. apply Z.eqb_neq in U2. exact U2.
        + apply ST; [exact FS | apply Z.eqb_eq; exact U2].
        + apply ST; [exact FS | apply Z.eqb_eq; exact U2].
        + apply ST; [exact FS | apply Z.eqb_eq; exact U2]. }
    do 5 (split; [intros HM ST Ha Hb Hc Ho; apply AR; try assumption; cbn [In]; tauto |]).
    split; [| split; [| split; [| split; [| split; [| split; [| split; [| split; [| split]]]]]]]].
    + intros np na HM (M3 & SS & SD) Ha Hb Hc Ho. destruct (HM eq_refl) as [MO [M0 _]]. cbn [x_source x_target] in Ha, Ho. destruct Hf as [-> | ->].
      * destruct (SS eq_refl) as (WF & Ba & Bb & Bc). cbn [value_exec prescribed]. rewrite WF.
        exact (fma_single_partial (b_host B) dyn np na rm mode a b c old HH MO (conj M0 M3) Ba Bb Bc Ho).
      * exact (fma_double_partial (b_host B) (b_wide B) dyn np na rm mode a b c old HH MO (conj M0 M3) Ha Hb Hc Ho (SD eq_refl)).
    + intros HM ST Ha Hb Hc Ho. apply MM; try assumption; reflexivity.
    + intros HM ST Ha Hb Hc Ho. apply MM; try assumption; reflexivity.
    + intros k HM ST Ha Hb Hc Ho. apply MM; try assumption; reflexivity.
    + intros HM ST Ha Hb Hc Ho. apply MM; try assumption; reflexivity.
    + intros HM ST Ha Hb Hc Ho. apply MM; try assumption; reflexivity.
    + intros HM ST Ha Hb Hc Ho. apply MM; try assumption; reflexivity.
    + intros HM ST Ha Hb Hc Ho. cbn [settled x_source x_target] in ST, Ha, Ho.
      apply (fclass_correct_partial (if b_wrapv B then Wrapv else Iso) (b_canon B) xl dyn f rm mode a b old); try assumption.
      * split; assumption.
      * destruct Hf as [E | E]; [right; exact (proj1 (ST E)) | left; rewrite E; discriminate].
      * destruct Hf as [-> | ->]; [exact (proj2 (ST eq_refl)) |].
        unfold boxed. change (2 ^ (FLEN - width double) - 1) with 0. apply Z.eqb_eq. apply Z.div_small. exact Ha.
    + intros sg w Hw. split.
      * intros HM ST Ha Hb Hc Ho. destruct (HM eq_refl) as [MO M4]. destruct ST as (BX & OV & TI). cbn [x_source x_target] in Ha, Ho.
        destruct (fcvt_int_correct_partial (if b_wrapv B then Wrapv else Iso) (b_canon B) xl dyn f sg w rm mode a b old) as (d & fl & fl' & E & C & D); try assumption.
        { split; [exact XL |]. split; [exact Fi | exact Hw]. }
        { destruct OV as [-> | OV]; [left; reflexivity | right; exact OV]. }
        exists d, fl. split; [exact E |]. destruct D as [-> | (M & FI & T & _)]; [exact C |]. destruct (TI M FI T).
      * intros HM ST Ha Hb Hc Ho. destruct (HM eq_refl) as [MO [M0 _]]. cbn [settled x_target] in ST, Ho.
        apply (int_to_float_partial (b_host B) (b_wide B) dyn f sg w rm mode a b c old HH Hf); try assumption; [| lia]. tauto.
    + intros HX. split.
      * intros HM ST Ha Hb Hc Ho. apply (fmv_x_correct_partial (if b_wrapv B then Wrapv else Iso) (b_canon B) xl dyn f rm mode a b old); try assumption.
        split; [exact XL |]. destruct Hf as [-> | ->]; [right; left; reflexivity |]. right; right. split; [reflexivity |]. destruct HX as [E | E]; [discriminate E | exact E].
      * intros HM ST Ha Hb Hc Ho. cbn [x_source x_target] in Ha, Ho.
        apply (moves_and_loads_box_partial (if b_wrapv B then Wrapv else Iso) (b_canon B) xl dyn (FMvFX f) rm mode a b old); try assumption.
        -- split; [exact XL |]. destruct Hf as [-> | ->]; [right; left; reflexivity |]. right; right. split; [reflexivity |]. destruct HX as [E | E]; [discriminate E | exact E].
        -- unfold reg. destruct XL as [-> | ->]; [| exact Ha]. change (2 ^ 32) with 4294967296 in Ha. clear - Ha. lia.
        -- exact (proj2 Ha).
  - intros HM [M3 SN] Ha Hb Hc Ho. destruct (HM eq_refl) as [MO [M0 _]]. cbn [x_source x_target] in Ha, Ho.
    apply (narrowing_partial (b_host B) (b_wide B) dyn rm mode a b c old HH MO (conj M0 M3) Ha Ho).
    rewrite FpProofs.unbox_double in SN by exact Ha. exact SN.
  - intros HM [BX SN] Ha Hb Hc Ho. destruct (HM eq_refl) as [MO _]. cbn [x_source x_target] in Ha, Ho.
    apply (single_widening_exact_partial (if b_wrapv B then Wrapv else Iso) (b_canon B) xl dyn rm mode a b old); try assumption.
    split; [exact XL |]. right; right; left. reflexivity.
Qed.
