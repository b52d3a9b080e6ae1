(** C33, C34: exception flags of guest and host, and the three views of the control register. *)
From Coq Require Import ZArith Bool List Lia.
From Verif Require Import Bits FcsrSpec FcsrModel FcsrProofs.
Import ListNotations.
Local Open Scope Z_scope.

(** ** C33: the flags of the guest and of the host *)

(** The stored word that carries the host's flags. *)
Definition flag_word (h : hstate) : Z := match h with HX86 s => s | HArm _ s => s end.
Definition kind (h : hstate) : host := match h with HX86 _ => X86 | HArm _ _ => Arm end.

(** Reading: for any stored host word, each guest flag is the corresponding host flag. *)
Theorem host_flags_read : forall h f, In f [NX; UF; OF; DZ; NV] ->
  Z.testbit (get_riscv_fcsr h) f = Z.testbit (flag_word h) (host_bit (kind h) f).
Proof.
  intros h f Hf. assert (F : 0 <= f < 5) by (unfold NX, UF, OF, DZ, NV in Hf; cbn in Hf; lia).
  assert (E : Z.testbit (get_riscv_fcsr h) f = Z.testbit (hflags h) f).
  { rewrite <- get_fcsr_low, Z.land_spec. change 31 with (Z.ones 5). rewrite Z.ones_spec_low by lia. symmetry. apply andb_true_r. }
  rewrite E. unfold hflags. change (hkind h) with (kind h). change (hword h) with (flag_word h).
  generalize (flag_word h) (kind h). intros x k. unfold flags_of_host, NX, UF, OF, DZ, NV. cbn [fold_right].
  unfold NX, UF, OF, DZ, NV in Hf. cbn [In] in Hf.
  destruct Hf as [<-|[<-|[<-|[<-|[<-|[]]]]]];
  destruct (Z.testbit x (host_bit k 0)), (Z.testbit x (host_bit k 1)), (Z.testbit x (host_bit k 2)),
    (Z.testbit x (host_bit k 3)), (Z.testbit x (host_bit k 4)); reflexivity.
Qed.
Print Assumptions host_flags_read.

(** Writing: each host flag is the corresponding guest flag, whatever was stored before. *)
Theorem host_flags_write : forall h v f, 0 <= v < 256 -> In f [NX; UF; OF; DZ; NV] ->
  Z.testbit (flag_word (set_riscv_fcsr h v)) (host_bit (kind h) f) = Z.testbit v f.
Proof.
  intros h v f Hv Hf. destruct (set_fcsr_ok h v Hv) as [K [F _]].
  change (kind h) with (hkind h). rewrite <- K. change (hkind (set_riscv_fcsr h v)) with (kind (set_riscv_fcsr h v)).
  rewrite <- host_flags_read by exact Hf.
  assert (F' : 0 <= f < 5) by (unfold NX, UF, OF, DZ, NV in Hf; cbn in Hf; lia).
  assert (E : Z.testbit (get_riscv_fcsr (set_riscv_fcsr h v)) f = Z.testbit (Z.land (get_riscv_fcsr (set_riscv_fcsr h v)) (Z.ones 5)) f).
  { rewrite Z.land_spec, Z.ones_spec_low by lia. symmetry. apply andb_true_r. }
  rewrite E. change (Z.ones 5) with 31. rewrite get_fcsr_low, F. change 32 with (2 ^ 5). apply Z.mod_pow2_bits_low. lia.
Qed.
Print Assumptions host_flags_write.

(** Guest to host and back is the identity on the five flags. *)
Theorem host_flags_round_trip : forall h v, 0 <= v < 256 -> get_riscv_fcsr (set_riscv_fcsr h v) mod 32 = v mod 32.
Proof.
  intros h v Hv. destruct (set_fcsr_ok h v Hv) as [_ [F _]]. rewrite <- F, <- land31. apply get_fcsr_low.
Qed.
Print Assumptions host_flags_round_trip.
Example host_flags_round_trip_example :
  set_riscv_fcsr (HX86 0) 0x15 = HX86 0x1fa9 /\ get_riscv_fcsr (HX86 0x1fa9) = 0x15 /\
  set_riscv_fcsr (HArm 0 0) 0x15 = HArm 0 0x15 /\ get_riscv_fcsr (HArm 0 0x0b) = 0x1a.
Proof. repeat split. Qed.

(** Unions go to unions, in both directions. *)
Theorem host_flags_union_read : forall a b c,
  get_riscv_fcsr (HX86 (Z.lor a b)) mod 32 = Z.lor (get_riscv_fcsr (HX86 a) mod 32) (get_riscv_fcsr (HX86 b) mod 32) /\
  get_riscv_fcsr (HArm c (Z.lor a b)) mod 32 = Z.lor (get_riscv_fcsr (HArm c a) mod 32) (get_riscv_fcsr (HArm c b) mod 32).
Proof. intros. rewrite <- !land31, !get_fcsr_low. unfold hflags. cbn [hkind hword]. split; apply flags_of_host_lor. Qed.
Print Assumptions host_flags_union_read.
Theorem host_flags_union_write : forall h f g, 0 <= f < 32 -> 0 <= g < 32 ->
  flag_word (set_riscv_fcsr h (Z.lor f g)) = Z.lor (flag_word (set_riscv_fcsr h f)) (flag_word (set_riscv_fcsr h g)).
Proof.
  intros h f g Hf Hg.
  assert (M : forall x, 0 <= x < 32 -> Z.land x 31 = x) by (intros; rewrite land31; apply Z.mod_small; assumption).
  assert (S : forall x, 0 <= x < 32 -> Z.land (Z.shiftr x 5) 7 = 0).
  { intros x Hx. rewrite shiftr5, Z.div_small by exact Hx. reflexivity. }
  assert (L : 0 <= Z.lor f g < 32). { rewrite <- lor_mod32 by assumption. apply Z.mod_pos_bound. lia. }
  unfold set_riscv_fcsr. rewrite !M, !S by assumption. destruct h; cbn [flag_word].
  - change (at_ kRiscVFlagsToX86) with (at_ (table_to X86)). rewrite table_to_lor by assumption.
    generalize (at_ (table_to X86) f) (at_ (table_to X86) g). intros a b.
    change (Z.lor kX86ExceptionFlags (at_ kRiscVToX86RoundingModeMap 0)) with 8064.
    apply Z.bits_inj'. intros n Hn. rewrite !Z.lor_spec.
    destruct (Z.testbit 8064 n), (Z.testbit a n), (Z.testbit b n); reflexivity.
  - apply (table_to_lor Arm); assumption.
Qed.
Print Assumptions host_flags_union_write.

(** Monotone: a larger set of host flags is read as a larger set of guest flags. *)
Theorem host_flags_monotone : forall a b c, Z.lor a b = b ->
  Z.lor (get_riscv_fcsr (HX86 a) mod 32) (get_riscv_fcsr (HX86 b) mod 32) = get_riscv_fcsr (HX86 b) mod 32 /\
  Z.lor (get_riscv_fcsr (HArm c a) mod 32) (get_riscv_fcsr (HArm c b) mod 32) = get_riscv_fcsr (HArm c b) mod 32.
Proof.
  intros a b c E. destruct (host_flags_union_read a b c) as [U V]. rewrite <- U, <- V, E. split; reflexivity.
Qed.
Print Assumptions host_flags_monotone.
Example host_flags_monotone_example : Z.lor 0x21 0x2b = 0x2b /\
  get_riscv_fcsr (HX86 0x21) mod 32 = 0x11 /\ get_riscv_fcsr (HX86 0x2b) mod 32 = 0x15.
Proof. repeat split. Qed.

(** ** C34: histories of the control registers *)

(** Reading frm gives the last value written to it through any of the three registers, after any
    history (including flags accrued by the host and instructions refused). *)
Theorem frm_view : forall h l, Forall (wf_op h) l ->
  exists s r, do_run (init h) l = Some (s, r) /\ csr_read s Frm = frm (fst (run h fp0 l)).
Proof.
  intros h l W. destruct (history_ok h l W) as [s [r H]]. exists s, r. split; [apply H|].
  rewrite (csr_read_ok h) by apply H. apply H.
Qed.
Print Assumptions frm_view.

(** The three registers are views of one, fcsr = frm * 32 + fflags, and the flags are exactly those
    written and accrued.  Missing (refuted below): csrrs/csrrc applied to fcsr itself, and
    instructions with dynamic rounding once frm has held an illegal value. *)
Theorem fcsr_views_partial : forall h l, Forall (wf_op h) l -> no_rmw_fcsr l -> no_dynamic_after_illegal h l ->
  exists s r, do_run (init h) l = Some (s, r) /\ forall c, csr_read s c = read (fst (run h fp0 l)) c.
Proof.
  intros h l W N1 N2. destruct (history_ok h l W) as [s [r H]]. exists s, r. split; [apply H|].
  intros c. rewrite (csr_read_ok h) by apply H. rewrite (ho_frm _ _ _ _ H), (ho_fl _ _ _ _ H N1 N2).
  destruct c; reflexivity.
Qed.
Print Assumptions fcsr_views_partial.
(** fcsr reads as the combination of the other two after every history, without conditions. *)
Theorem fcsr_is_frm_and_fflags : forall h l, Forall (wf_op h) l ->
  exists s r, do_run (init h) l = Some (s, r) /\
    csr_read s Fcsr = 32 * csr_read s Frm + csr_read s Fflags /\ 0 <= csr_read s Frm < 8 /\ 0 <= csr_read s Fflags < 32.
Proof.
  intros h l W. destruct (history_ok h l W) as [s [r H]]. exists s, r. split; [apply H|].
  rewrite !(csr_read_ok h) by apply H. cbn [read frm fflags]. split; [reflexivity|]. split; [apply fr_range, H|apply fl_range].
Qed.
Print Assumptions fcsr_is_frm_and_fflags.
Definition demo : list op :=
  [Write Fcsr 0x41; Scalar DYN 16; Set_ Fflags 8; Raise 16; Clear Fflags 1; Write Frm 3; Scalar 3 4; Vector 32].
Example fcsr_views_example : Forall (wf_op X86) demo /\ no_rmw_fcsr demo /\ no_dynamic_after_illegal X86 demo /\
  legal_throughout X86 demo /\ static_agrees X86 demo /\
  option_map (fun p => (csr_read (fst p) Fcsr, snd p)) (do_run (init X86) demo) =
    Some (0x7b, [None; Some (Some 2); None; None; None; None; Some (Some 3); Some (Some 3)]).
Proof.
  assert (L : legal_throughout X86 demo).
  { intros l1 l2 E. unfold demo in E.
    repeat (destruct l1 as [|? l1]; [reflexivity|injection E as <- E]). destruct l1; [reflexivity|discriminate]. }
  split; [repeat constructor; cbn; unfold DYN; lia|]. split.
  { intros v. split; intros H; cbn in H; repeat (destruct H as [H|H]; [discriminate|]); exact H. }
  split. { intros l1 l2 E EL. rewrite (L l1 l2 E) in EL. discriminate. }
  split; [exact L|]. split; [|reflexivity].
  intros l1 rm x l2 E. unfold demo in E.
  repeat (destruct l1 as [|? l1]; [first [discriminate E|injection E as <- <- <-; (left; reflexivity) || (right; reflexivity)]|injection E as <- E]).
  destruct l1; discriminate.
Qed.

(** Rounding modes.  After any history: an instruction with a static mode runs in it; one with
    dynamic rounding is refused, without effect, while frm is illegal, and if it runs the host is in
    the mode frm (RMM run as RNE). *)
Theorem rounding_mode_used : forall h l, Forall (wf_op h) l ->
  exists s r, do_run (init h) l = Some (s, r) /\ let m := frm (fst (run h fp0 l)) in
    (forall rm x, 0 <= rm <= 4 -> 0 <= x < 2 ^ host_flag_bits h ->
       exists s', do_op s (Scalar rm x) = Some (s', Some (Some (on_host rm)))) /\
    (legal_rm m = false -> forall x, 0 <= x < 2 ^ host_flag_bits h ->
       do_op s (Scalar DYN x) = Some (s, Some None) /\ do_op s (Vector x) = Some (s, Some None)) /\
    (forall x s' u, 0 <= x < 2 ^ host_flag_bits h -> do_op s (Scalar DYN x) = Some (s', Some (Some u)) -> u = on_host m).
Proof.
  intros h l W. destruct (history_ok h l W) as [s [r H]]. exists s, r. split; [apply H|]. intros m.
  pose proof (ho_inv _ _ _ _ H) as I. pose proof (ho_frm _ _ _ _ H) as E. fold m in E. split; [|split].
  - intros rm x Hr Hx. destruct (do_op_ok h s (Scalar rm x) I) as [s' [D _]]; [cbn [wf_op]; auto|].
    exists s'. rewrite D. cbn [output]. assert (rm =? 7 = false) as -> by (apply Z.eqb_neq; lia). reflexivity.
  - intros L x Hx. assert (V : valid s = false).
    { apply (inv_illegal _ _ I). rewrite E. unfold legal_rm in L. apply Z.leb_gt in L. exact L. }
    cbn [do_op]. unfold host_scalar, host_vector, DYN. cbn [Z.eqb Pos.eqb]. rewrite V. split; reflexivity.
  - intros x s' u Hx D. destruct (do_op_ok h s (Scalar DYN x) I) as [s'' [D' _]]; [cbn [wf_op]; auto|].
    rewrite D in D'. cbn [output] in D'. unfold DYN in D'. cbn [Z.eqb Pos.eqb] in D'. destruct (valid s) eqn:V; cbn [negb andb] in D'; [|discriminate].
    injection D' as _ ->. f_equal. rewrite <- E. apply (inv_legal _ _ I).
    destruct (Z_le_gt_dec (fr s) 4); [assumption|]. rewrite (inv_illegal _ _ I) in V by lia. discriminate.
Qed.
Print Assumptions rounding_mode_used.
Example rounding_mode_used_example : Forall (wf_op Arm) [Write Frm 2; Write Fcsr 0xa3] /\
  legal_rm (frm (fst (run Arm fp0 [Write Frm 2; Write Fcsr 0xa3]))) = false /\
  option_map snd (do_run (init Arm) [Write Frm 2; Scalar DYN 1; Write Fcsr 0xa3; Scalar DYN 1; Scalar 1 0; Vector 0]) =
    Some [None; Some (Some 2); None; Some None; Some (Some 1); Some None].
Proof. split; [repeat constructor; cbn; lia|]. split; reflexivity. Qed.

(** While frm stays legal every instruction runs, in the mode the manual gives it; for vector
    instructions this holds on x86 if no instruction used a static mode different from frm.
    Missing (refuted below): recovery from an illegal frm, vector instructions on Arm or after an
    instruction with a static mode, and RMM itself. *)
Theorem dynamic_rounding_partial : forall h l, Forall (wf_op h) l -> legal_throughout h l ->
  (h = X86 /\ static_agrees h l) \/ (forall x, ~ In (Vector x) l) ->
  exists s, do_run (init h) l = Some (s, snd (run h fp0 l)).
Proof.
  intros h l W L O. destruct (history_ok h l W) as [s [r H]]. exists s.
  rewrite <- (ho_out _ _ _ _ H L O). apply H.
Qed.
Print Assumptions dynamic_rounding_partial.

(** csrrs on fcsr after an instruction raised NX: the flag is lost. *)
Theorem fcsr_set_bits_refuted : exists h l s r, Forall (wf_op h) l /\ legal_throughout h l /\
  do_run (init h) l = Some (s, r) /\ read (fst (run h fp0 l)) Fcsr = 0x11 /\ csr_read s Fcsr = 0x10.
Proof.
  exists X86, [Scalar 0 32; Set_ Fcsr 16]. eexists. eexists.
  split; [repeat constructor; cbn; lia|]. split.
  { intros l1 l2 E. repeat (destruct l1 as [|? l1]; [reflexivity|injection E as <- E]). destruct l1; [reflexivity|discriminate]. }
  split; [reflexivity|]. split; reflexivity.
Qed.
Print Assumptions fcsr_set_bits_refuted.

(** After frm was illegal, writing the former mode back leaves dynamic instructions refused; their
    flags are then missing too. *)
Theorem rounding_recovery_refuted : exists h l s r, Forall (wf_op h) l /\ no_rmw_fcsr l /\
  do_run (init h) l = Some (s, r) /\ csr_read s Frm = 0 /\
  last r None = Some None /\ last (snd (run h fp0 l)) None = Some (Some 0) /\
  csr_read s Fflags = 0 /\ read (fst (run h fp0 l)) Fflags = 1.
Proof.
  exists X86, [Write Frm 5; Write Frm 0; Scalar DYN 32]. eexists. eexists.
  split; [repeat constructor; cbn; unfold DYN; lia|]. split.
  { intros v. split; intros H; cbn in H; repeat (destruct H as [H|H]; [discriminate|]); exact H. }
  repeat split.
Qed.
Print Assumptions rounding_recovery_refuted.

(** A vector instruction after a scalar one with a static mode runs in that mode (x86); on Arm vector
    instructions run in RNE whatever frm says. *)
Theorem vector_rounding_refuted :
  (exists l s r, Forall (wf_op X86) l /\ legal_throughout X86 l /\ do_run (init X86) l = Some (s, r) /\
     last r None = Some (Some 2) /\ last (snd (run X86 fp0 l)) None = Some (Some 0)) /\
  (exists l s r, Forall (wf_op Arm) l /\ legal_throughout Arm l /\ do_run (init Arm) l = Some (s, r) /\
     last r None = Some (Some 0) /\ last (snd (run Arm fp0 l)) None = Some (Some 2)).
Proof.
  split.
  - exists [Scalar 2 0; Vector 0]. eexists. eexists. split; [repeat constructor; cbn; lia|]. split; [|repeat split].
    intros l1 l2 E. repeat (destruct l1 as [|? l1]; [reflexivity|injection E as <- E]). destruct l1; [reflexivity|discriminate].
  - exists [Write Frm 2; Vector 0]. eexists. eexists. split; [repeat constructor; cbn; lia|]. split; [|repeat split].
    intros l1 l2 E. repeat (destruct l1 as [|? l1]; [reflexivity|injection E as <- E]). destruct l1; [reflexivity|discriminate].
Qed.
Print Assumptions vector_rounding_refuted.

(** With frm = RMM the host rounds to nearest even. *)
Theorem rmm_refuted : exists s r, do_run (init X86) [Write Frm 4; Scalar DYN 0] = Some (s, r) /\
  csr_read s Frm = 4 /\ last r None = Some (Some 0).
Proof. eexists. eexists. repeat split. Qed.
Print Assumptions rmm_refuted.
