(** Theorems C95: misa. *)
From Coq Require Import ZArith List Bool Lia.
From Verif Require Import MisaSpec MisaModel.
Import ListNotations.
Local Open Scope Z_scope.

(** ** Bits *)
Lemma mask_low v k : 0 <= k -> Z.land v (2 ^ k - 1) = v mod 2 ^ k.
Proof. intros K. rewrite <- Z.land_ones by exact K. f_equal. rewrite Z.ones_equiv. lia. Qed.
Lemma mask_high v n k : 0 <= n -> 0 <= k -> 0 <= v < 2 ^ (n + k) -> Z.land v (Z.shiftl (Z.ones k) n) = Z.shiftl (v / 2 ^ n) n.
Proof.
  intros N K V. apply Z.bits_inj'. intros j J. rewrite Z.land_spec, !Z.shiftl_spec by lia. destruct (Z.lt_ge_cases j n) as [L | L].
  - rewrite (Z.testbit_neg_r (Z.ones k)), (Z.testbit_neg_r (v / 2 ^ n)) by lia. apply andb_false_r.
  - rewrite <- Z.shiftr_div_pow2, Z.shiftr_spec by lia. replace (j - n + n) with j by lia.
    destruct (Z.lt_ge_cases j (n + k)) as [M | M].
    + rewrite Z.ones_spec_low by lia. apply andb_true_r.
    + rewrite Z.ones_spec_high by lia. rewrite andb_false_r. symmetry.
      destruct (Z.eq_dec v 0) as [-> | Z0]; [apply Z.bits_0 |]. apply Z.bits_above_log2; [lia |]. apply Z.lt_le_trans with (n + k); [| exact M].
      apply Z.log2_lt_pow2; [lia | exact (proj2 V)].
Qed.
Lemma join a b n : 0 <= n -> 0 <= b < 2 ^ n -> Z.lor (Z.shiftl a n) b = a * 2 ^ n + b.
Proof.
  intros N B.
  assert (D : Z.land (Z.shiftl a n) b = 0).
  { apply Z.bits_inj'. intros j J. rewrite Z.land_spec, Z.bits_0, Z.shiftl_spec by lia.
    destruct (Z.lt_ge_cases j n) as [L | L]; [rewrite (Z.testbit_neg_r a) by lia; reflexivity |].
    destruct (Z.eq_dec b 0) as [-> | Z0]; [rewrite Z.bits_0; apply andb_false_r |].
    rewrite (Z.bits_above_log2 b j); [apply andb_false_r | lia |]. apply Z.lt_le_trans with n; [apply Z.log2_lt_pow2; [lia | exact (proj2 B)] | exact L]. }
  rewrite <- Z.lxor_lor, <- Z.add_nocarry_lxor by exact D. rewrite Z.shiftl_mul_pow2 by exact N. reflexivity.
Qed.
Lemma low26 v n : 26 <= n -> 0 <= v mod 2 ^ 26 < 2 ^ n.
Proof.
  intros N. pose proof (Z.mod_pos_bound v (2 ^ 26) ltac:(lia)) as B. assert (2 ^ 26 <= 2 ^ n) by (apply Z.pow_le_mono_r; lia). lia.
Qed.
Lemma read64 c : 0 <= c < 2 ^ 64 -> AsUint 64 c = layout 64 (isa_of 64 c).
Proof.
  intros C. change (AsUint 64 c) with (Z.land c (Z.lor (Z.shiftl (Z.ones 2) 62) (2 ^ 26 - 1))).
  rewrite Z.land_lor_distr_r, mask_low, mask_high by lia. apply join; [lia | apply low26; lia].
Qed.
Lemma read32 c : 0 <= c < 2 ^ 64 -> AsUint 32 c = layout 32 (isa_of 64 c).
Proof.
  intros C. change (AsUint 32 c) with (Z.land (Z.lor (Z.land (Z.shiftr c 32) 0xc0000000) (Z.land c 0x3fffffff)) 0xc3ffffff).
  rewrite Z.land_lor_distr_l, <- !Z.land_assoc. change (Z.land 0xc0000000 0xc3ffffff) with (Z.shiftl (Z.ones 2) 30).
  change (Z.land 0x3fffffff 0xc3ffffff) with (2 ^ 26 - 1). rewrite mask_low by lia. rewrite Z.shiftr_div_pow2 by lia.
  rewrite mask_high; [| lia | lia |].
  - rewrite Z.div_div by lia. rewrite join; [reflexivity | lia | apply low26; lia].
  - split; [apply Z.div_pos; lia |]. apply Z.div_lt_upper_bound; [lia |]. change (2 ^ 32 * 2 ^ (30 + 2)) with (2 ^ 64). exact (proj2 C).
Qed.
Lemma stretch x : 0 <= x < 2 ^ 32 -> 0 <= StretchMisa32 x < 2 ^ 64 /\ isa_of 64 (StretchMisa32 x) = isa_of 32 x.
Proof.
  intros X.
  assert (Q : 0 <= x / 2 ^ 30 < 4) by (split; [apply Z.div_pos; lia | apply Z.div_lt_upper_bound; lia]).
  assert (E : StretchMisa32 x = x / 2 ^ 30 * 2 ^ 62 + x mod 2 ^ 26).
  { change (StretchMisa32 x) with (Z.lor (Z.shiftl (Z.land x (Z.shiftl (Z.ones 2) 30)) 32) (Z.land x (2 ^ 26 - 1))).
    rewrite mask_low, mask_high by lia. rewrite Z.shiftl_shiftl by lia. apply join; [lia | apply low26; lia]. }
  rewrite E. pose proof (low26 x 62 ltac:(lia)) as B. pose proof (Z.mod_pos_bound x (2 ^ 26) ltac:(lia)) as B26. unfold isa_of.
  change (64 - 2) with 62. change (32 - 2) with 30. set (q := x / 2 ^ 30) in *. set (r := x mod 2 ^ 26) in *. clearbody q r. clear E X x.
  split; [change (2 ^ 64) with (4 * 2 ^ 62); lia |]. f_equal.
  - symmetry. apply (Z.div_unique _ _ _ r); [left; exact B | lia].
  - symmetry. apply (Z.mod_unique _ _ (q * 2 ^ 36)); [left; exact B26 |]. change (2 ^ 62) with (2 ^ 36 * 2 ^ 26). lia.
Qed.
Lemma bit_test v n : 0 <= n -> negb (Z.land v (Z.shiftl 1 n) =? 0) = Z.testbit v n.
Proof.
  intros N. rewrite Z.shiftl_1_l. destruct (Z.testbit v n) eqn:T.
  - apply negb_true_iff, Z.eqb_neq. intros K. apply (f_equal (fun z => Z.testbit z n)) in K. rewrite Z.land_spec, T, Z.pow2_bits_true, Z.bits_0 in K by lia. discriminate K.
  - apply negb_false_iff, Z.eqb_eq. apply Z.bits_inj'. intros j J. rewrite Z.land_spec, Z.bits_0, Z.pow2_bits_eqb by lia.
    destruct (Z.eqb_spec n j) as [<- | _]; [rewrite T; reflexivity | apply andb_false_r].
Qed.
Lemma has_bit w v n : 0 <= n < 26 -> has (isa_of w v) n = Z.testbit v n.
Proof. intros N. unfold has, isa_of. cbn [letters]. apply Z.mod_pow2_bits_low. lia. Qed.

(** ** Histories *)
Lemma steps l : Forall proper l -> forall c i, 0 <= c < 2 ^ 64 -> isa_of 64 c = i ->
  0 <= access_steps c l < 2 ^ 64 /\ isa_of 64 (access_steps c l) = after_all i l.
Proof.
  induction 1 as [| a l A _ IH]; intros c i C E; [exact (conj C E) |]. unfold access_steps, after_all. cbn [fold_left]. apply IH.
  - destruct a; cbn [access_step proper] in *; try exact C. exact A.
  - destruct a; cbn [access_step after] in *; try exact E. reflexivity.
Qed.
Lemma constructed w x : w = 32 \/ w = 64 -> 0 <= x < 2 ^ w -> 0 <= construct w x < 2 ^ 64 /\ isa_of 64 (construct w x) = isa_of w x.
Proof. intros [-> | ->] X; [exact (stretch x X) | exact (conj X eq_refl)]. Qed.

(** Whatever initial value a machine of 32 or 64 bits is given, and whatever accesses follow: CSR instructions change
    nothing; reads of 32 and of 64 bits give MXL and the letters, of the initial value or of the value last set, in the
    layout of their width; the tests for S and C are those of the letters. *)
Theorem misa_history : forall w x l, w = 32 \/ w = 64 -> 0 <= x < 2 ^ w -> Forall proper l ->
  let c := access_steps (construct w x) l in let i := after_all (isa_of w x) l in
  AsUint 32 c = layout 32 i /\ AsUint 64 c = layout 64 i /\
  HasSupervisorMode c = has i letter_s /\ has_c_extension c = has i letter_c.
Proof.
  intros w x l W X P c i. destruct (constructed w x W X) as [C E]. destruct (steps l P _ _ C E) as [C2 E2]. fold c in C2, E2. fold i in E2.
  rewrite <- E2. split; [exact (read32 c C2) | split; [exact (read64 c C2) |]]. rewrite !has_bit by (unfold letter_s, letter_c; lia). split.
  - unfold HasSupervisorMode. rewrite bit_test by (vm_compute; discriminate). unfold GetUint32, CompressMisa64, GetUint64. rewrite Z.lor_spec, !Z.land_spec.
    change (Z.testbit 0xc0000000 18) with false. change (Z.testbit 0x3fffffff 18) with true. rewrite andb_false_r, andb_true_r. reflexivity.
  - unfold has_c_extension. apply (bit_test _ 2). lia.
Qed.
Print Assumptions misa_history.
Example misa_history_case :
  let l := [Write 32 0; SetBits 32 0xffffffff; ClearBits 32 0xffffffff] in
  AsUint 32 (access_steps (construct 32 (kMisaInitialValue 32)) l) = 0x4004116d /\ after_all (isa_of 32 0x4004116d) l = mk_isa 1 0x04116d /\
  AsUint 64 (access_steps (construct 64 (kMisaInitialValue 64)) (l ++ [Set64 0x8000000000141105; Write 64 0])) = 0x8000000000141105.
Proof. repeat split. Qed.

(** Without the flag --misa, programs read MXL and the letters A C D F G I M S. *)
Theorem misa_initial : forall w l, w = 32 \/ w = 64 -> Forall proper l -> (forall v, ~ In (Set64 v) l) ->
  AsUint w (access_steps (flag_misa w None) l) =
  layout w (mk_isa (if w =? 32 then 1 else 2) (fold_left Z.add (map (fun n => 2 ^ n) [0; 2; 3; 5; 6; 8; 12; 18]) 0)).
Proof.
  intros w l W P N.
  assert (K : after_all (isa_of w (kMisaInitialValue w)) l = isa_of w (kMisaInitialValue w)).
  { clear P W. generalize (isa_of w (kMisaInitialValue w)). induction l as [| a l IH]; intros i; [reflexivity |]. unfold after_all. cbn [fold_left].
    destruct a; cbn [after]; try (apply IH; intros u U; apply (N u); right; exact U). exfalso. apply (N v). left. reflexivity. }
  destruct W as [-> | ->].
  - destruct (misa_history 32 (kMisaInitialValue 32) l (or_introl eq_refl) ltac:(vm_compute; split; [discriminate | reflexivity]) P) as [H _].
    change (flag_misa 32 None) with (construct 32 (kMisaInitialValue 32)). rewrite H, K. reflexivity.
  - destruct (misa_history 64 (kMisaInitialValue 64) l (or_intror eq_refl) ltac:(vm_compute; split; [discriminate | reflexivity]) P) as [_ [H _]].
    change (flag_misa 64 None) with (construct 64 (kMisaInitialValue 64)). rewrite H, K. reflexivity.
Qed.
Print Assumptions misa_initial.

(** The width is reported for MXL 0 and 1.  Missing: MXL 2 and 3, see below. *)
Theorem misa_xlen_partial : forall w x l, w = 32 \/ w = 64 -> 0 <= x < 2 ^ w -> Forall proper l ->
  let c := access_steps (construct w x) l in let i := after_all (isa_of w x) l in mxl i < 2 -> Xlen c = width (mxl i).
Proof.
  intros w x l W X P c i M. destruct (constructed w x W X) as [C E]. destruct (steps l P _ _ C E) as [C2 E2]. fold c in C2, E2. fold i in E2. rewrite <- E2 in *.
  cbn [isa_of mxl] in *. change (64 - 2) with 62 in *. unfold Xlen, GetUint64. rewrite Z.shiftr_div_pow2 by lia.
  assert (0 <= c / 2 ^ 62) by (apply Z.div_pos; lia). assert (c / 2 ^ 62 = 0 \/ c / 2 ^ 62 = 1) as [-> | ->] by lia; reflexivity.
Qed.
Print Assumptions misa_xlen_partial.
Example misa_xlen_case : mxl (after_all (isa_of 32 (kMisaInitialValue 32)) [Write 32 0]) = 1 /\ Xlen (construct 32 (kMisaInitialValue 32)) = Some 32.
Proof. split; reflexivity. Qed.
(** Every machine of 64 bits is reported to be of unknown width, and MXL 3 as 32 bits. *)
Theorem misa_xlen_refuted : forall w x l, w = 32 \/ w = 64 -> 0 <= x < 2 ^ w -> Forall proper l ->
  let c := access_steps (construct w x) l in let i := after_all (isa_of w x) l in
  (mxl i = 2 -> Xlen c = None /\ width (mxl i) = Some 64) /\ (mxl i = 3 -> Xlen c = Some 32 /\ width (mxl i) = None).
Proof.
  intros w x l W X P c i. destruct (constructed w x W X) as [C E]. destruct (steps l P _ _ C E) as [C2 E2]. fold c in C2, E2. fold i in E2. rewrite <- E2 in *.
  cbn [isa_of mxl] in *. change (64 - 2) with 62 in *. unfold Xlen, GetUint64. rewrite Z.shiftr_div_pow2 by lia.
  split; intros ->; split; reflexivity.
Qed.
Print Assumptions misa_xlen_refuted.
Example misa_xlen_refuted_case : mxl (after_all (isa_of 64 (kMisaInitialValue 64)) []) = 2 /\ 0 <= kMisaInitialValue 64 < 2 ^ 64.
Proof. vm_compute. repeat split; discriminate. Qed.

(** User mode is implemented whatever misa says, and misa says it is not; a value of 32 bits given with --misa to a machine
    of 32 bits is read back without its MXL, and so is a value set with the 32-bit Set. *)
Theorem misa_values_refuted :
  (forall c, HasUserMode c = true) /\ has (isa_of 32 (AsUint 32 (flag_misa 32 None))) letter_u = false /\
  has (isa_of 64 (AsUint 64 (flag_misa 64 None))) letter_u = false /\
  (forall v, 0 <= v < 2 ^ 32 -> AsUint 32 (flag_misa 32 (Some v)) = v mod 2 ^ 26 /\ AsUint 32 (misa_set32 v (construct 32 0)) = v mod 2 ^ 26) /\
  (AsUint 32 (flag_misa 32 (Some 0x40101105)) = 0x00101105 /\ layout 32 (isa_of 32 0x40101105) = 0x40101105).
Proof.
  split; [reflexivity |]. split; [reflexivity |]. split; [reflexivity |]. split; [| split; reflexivity].
  intros v V. assert (R : AsUint 32 v = v mod 2 ^ 26).
  { rewrite read32 by lia. unfold layout, isa_of. cbn [mxl letters]. rewrite (Z.div_small v) by (change (2 ^ (64 - 2)) with (2 ^ 62); lia). lia. }
  split; exact R.
Qed.
Print Assumptions misa_values_refuted.
