(** The IEEE operations of the specification: results are patterns of the format, and NaN only as the
    canonical NaN; negation. *)
From Coq Require Import ZArith Bool List Lia.
From Verif Require Import Bits IeeeSpec FpSpec IntModel FpModel FpProofs FpCvt FpWiden FarithSpec FarithModel.
Import ListNotations.
Local Open Scope Z_scope.

Definition top (f : fmt) : Z := (2 ^ ew f - 1) * 2 ^ sw f.

Lemma top_range : forall f, okf f -> 0 < top f /\ top f < 2 ^ (width f - 1) /\ 2 ^ (width f - 1) = top f + 2 ^ sw f.
Proof.
  intros f [He Hs]. unfold top, width. replace (1 + ew f + sw f - 1) with (ew f + sw f) by lia. rewrite Z.pow_add_r by lia.
  assert (P : 0 < 2 ^ sw f) by (apply Z.pow_pos_nonneg; lia).
  assert (Q : 4 <= 2 ^ ew f) by (change 4 with (2 ^ 2); apply Z.pow_le_mono_r; lia).
  set (x := 2 ^ ew f) in *. set (y := 2 ^ sw f) in *. clearbody x y. nia.
Qed.

(** A magnitude up to [top]: a number or an infinity. *)
Definition number (f : fmt) (x : Z) : Prop := 0 <= x < 2 ^ width f /\ is_nan f x = false.

Lemma number_of : forall f s m, okf f -> 0 <= m <= top f -> number f (with_sign f s m).
Proof.
  intros f s m Hf Hm. pose proof Hf as [He Hs]. destruct (top_range f Hf) as [T1 [T2 T3]].
  assert (P : 0 < 2 ^ sw f) by (apply Z.pow_pos_nonneg; lia).
  assert (Q : 0 < 2 ^ ew f) by (apply Z.pow_pos_nonneg; lia).
  split; [apply with_sign_range; [exact Hf | lia] |].
  assert (E : 0 <= m / 2 ^ sw f < 2 ^ ew f).
  { split; [apply Z.div_pos; lia | apply Z.div_lt_upper_bound; [lia |]]. unfold top in Hm. nia. }
  assert (F : 0 <= m mod 2 ^ sw f < 2 ^ sw f) by (apply Z.mod_pos_bound; lia).
  pose proof (fields f s _ _ Hf E F) as (_ & X & Y & _).
  replace (m / 2 ^ sw f * 2 ^ sw f + m mod 2 ^ sw f) with m in X, Y
    by (rewrite (Z.div_mod m (2 ^ sw f)) at 1 by lia; ring).
  unfold is_nan, special. rewrite X, Y.
  destruct (m / 2 ^ sw f =? 2 ^ ew f - 1) eqn:C; [| reflexivity]. apply Z.eqb_eq in C. cbn [andb].
  replace (m mod 2 ^ sw f) with 0; [reflexivity |].
  unfold top in Hm. pose proof (Z.div_mod m (2 ^ sw f) ltac:(lia)) as D. rewrite C in D. lia.
Qed.

Lemma number_inf : forall f s, okf f -> number f (infinity f s).
Proof. intros f s Hf. apply number_of; [exact Hf |]. destruct (top_range f Hf). unfold top in *. lia. Qed.
Lemma number_zero : forall f s, okf f -> number f (zero f s).
Proof. intros f s Hf. apply number_of; [exact Hf |]. destruct (top_range f Hf). lia. Qed.

Lemma round_mag_nonneg : forall rm s p r, 0 <= p -> 0 < r -> 0 <= round_mag rm s p r.
Proof.
  intros rm s p r Hp Hr. unfold round_mag. cbv zeta. assert (0 <= p / r) by (apply Z.div_pos; lia).
  set (k := p / r) in *. clearbody k. match goal with |- 0 <= (if ?b then _ else _) => destruct b end; lia.
Qed.

(** The magnitude part of [round_to]. *)
Definition round_part (f : fmt) (rm : Z) (s : bool) (p r : Z) : Z :=
  let u := Z.max (floor_log2 p r - sw f) (- quantum f) in
  let pattern := (u + quantum f) * 2 ^ sw f + fst (scaled rm s p r u) in
  if top f <=? pattern then
    (if match rm with 1 => false | 2 => s | 3 => negb s | _ => true end then top f else top f - 1)
  else pattern.

Lemma round_to_part : forall f rm s p r, fst (round_to f rm s p r) = with_sign f s (round_part f rm s p r).
Proof.
  intros. unfold round_to, round_part, top. cbv zeta.
  destruct (scaled rm s p r _) as [m ex] eqn:E. cbn [fst].
  destruct (_ <=? _); cbn [fst]; reflexivity.
Qed.

Lemma round_part_range : forall f rm s p r, okf f -> 0 <= p -> 0 < r -> 0 <= round_part f rm s p r <= top f.
Proof.
  intros f rm s p r Hf Hp Hr. destruct (top_range f Hf) as [T _]. pose proof Hf as [He Hs]. unfold round_part. cbv zeta.
  set (u := Z.max _ _). assert (U : 0 <= u + quantum f) by (subst u; lia). clearbody u.
  assert (M : 0 <= fst (scaled rm s p r u)).
  { unfold scaled. cbn [fst]. apply round_mag_nonneg;
      [apply Z.mul_nonneg_nonneg | apply Z.mul_pos_pos]; try lia; try apply Z.lt_le_incl; apply Z.pow_pos_nonneg; lia. }
  assert (P : 0 < 2 ^ sw f) by (apply Z.pow_pos_nonneg; lia).
  set (pat := (u + quantum f) * 2 ^ sw f + fst (scaled rm s p r u)). assert (0 <= pat) by (subst pat; nia). clearbody pat.
  destruct (top f <=? pat) eqn:C.
  - destruct (match rm with 1 => false | 2 => s | 3 => negb s | _ => true end); lia.
  - apply Z.leb_gt in C. lia.
Qed.

Lemma number_round : forall f rm s p r, okf f -> 0 <= p -> 0 < r -> number f (fst (round_to f rm s p r)).
Proof. intros. rewrite round_to_part. apply number_of; [assumption | apply round_part_range; assumption]. Qed.

Lemma number_rat : forall f rm n d zs, okf f -> 0 < d -> number f (fst (round_rat f rm n d zs)).
Proof.
  intros f rm n d zs Hf Hd. unfold round_rat. destruct (n =? 0); [apply number_zero; exact Hf |].
  apply number_round; [exact Hf | lia | exact Hd].
Qed.

(** * Negation *)

Lemma neg_flip : forall f x, okf f -> neg f x = flip f x.
Proof. intros f x [He Hs]. unfold neg, flip. rewrite Z.shiftl_1_l. reflexivity. Qed.

Lemma flip_with_sign : forall f s m, okf f -> 0 <= m < 2 ^ (width f - 1) -> flip f (with_sign f s m) = with_sign f (negb s) m.
Proof.
  intros f s m Hf Hm. pose proof Hf as [He Hs]. unfold flip. apply Z.bits_inj'. intros n Hn.
  rewrite Z.lxor_spec, !with_sign_bits by assumption. rewrite Z.pow2_bits_eqb by (unfold width; lia).
  destruct (n <? width f - 1) eqn:C.
  - apply Z.ltb_lt in C. replace (width f - 1 =? n) with false by (symmetry; apply Z.eqb_neq; lia). apply xorb_false_r.
  - rewrite (Z.eqb_sym (width f - 1) n). destruct (n =? width f - 1), s; reflexivity.
Qed.

Lemma pattern_of : forall f x, okf f -> 0 <= x < 2 ^ width f ->
  exists s E F, 0 <= E < 2 ^ ew f /\ 0 <= F < 2 ^ sw f /\ x = with_sign f s (E * 2 ^ sw f + F) /\
    sign f x = s /\ expo f x = E /\ frac f x = F /\ 0 <= E * 2 ^ sw f + F < 2 ^ (width f - 1).
Proof.
  intros f x Hf Hx. pose proof Hf as [He Hs].
  assert (P : 0 < 2 ^ sw f) by (apply Z.pow_pos_nonneg; lia).
  assert (Q : 0 < 2 ^ ew f) by (apply Z.pow_pos_nonneg; lia).
  assert (R : 2 ^ (width f - 1) = 2 ^ ew f * 2 ^ sw f).
  { unfold width. replace (1 + ew f + sw f - 1) with (ew f + sw f) by lia. apply Z.pow_add_r; lia. }
  exists (sign f x), (expo f x), (frac f x).
  assert (E : 0 <= expo f x < 2 ^ ew f) by (apply Z.mod_pos_bound; lia).
  assert (F : 0 <= frac f x < 2 ^ sw f) by (apply Z.mod_pos_bound; lia).
  split; [exact E |]. split; [exact F |]. split; [apply pattern_split; assumption |].
  split; [reflexivity |]. split; [reflexivity |]. split; [reflexivity |]. rewrite R. nia.
Qed.

(** What negation keeps and changes. *)
Lemma flip_facts : forall f x, okf f -> 0 <= x < 2 ^ width f ->
  sign f (flip f x) = negb (sign f x) /\ expo f (flip f x) = expo f x /\ frac f (flip f x) = frac f x /\
  0 <= flip f x < 2 ^ width f /\ is_nan f (flip f x) = is_nan f x /\ is_snan f (flip f x) = is_snan f x /\
  is_inf f (flip f x) = is_inf f x /\ is_zero f (flip f x) = is_zero f x /\ magnitude f (flip f x) = magnitude f x /\
  units f (flip f x) = - units f x /\ flip f (flip f x) = x.
Proof.
  intros f x Hf Hx. destruct (pattern_of f x Hf Hx) as (s & E & F & HE & HF & Ex & A1 & A2 & A3 & A4).
  pose proof Hf as [He Hs].
  assert (Fl : flip f x = with_sign f (negb s) (E * 2 ^ sw f + F)) by (rewrite Ex; apply flip_with_sign; assumption).
  pose proof (fields f (negb s) E F Hf HE HF) as (B1 & B2 & B3 & B4). cbv zeta in *. rewrite <- Fl in B1, B2, B3, B4.
  assert (N : is_nan f (flip f x) = is_nan f x) by (unfold is_nan, special; rewrite A2, A3, B2, B3; reflexivity).
  assert (M : magnitude f (flip f x) = magnitude f x) by (unfold magnitude; rewrite A2, A3, B2, B3; reflexivity).
  split; [rewrite B1, A1; reflexivity |]. split; [rewrite B2, A2; reflexivity |]. split; [rewrite B3, A3; reflexivity |].
  split; [exact B4 |]. split; [exact N |]. split.
  { unfold is_snan. rewrite N. f_equal. f_equal. unfold flip. rewrite Z.lxor_spec, Z.pow2_bits_eqb by (unfold width; lia).
    replace (width f - 1 =? sw f - 1) with false by (symmetry; apply Z.eqb_neq; unfold width; lia). apply xorb_false_r. }
  split; [unfold is_inf, special; rewrite A2, A3, B2, B3; reflexivity |].
  split; [unfold is_zero; rewrite A2, A3, B2, B3; reflexivity |]. split; [exact M |].
  split; [unfold units; rewrite M, B1, A1; destruct s; cbn [negb]; lia |].
  unfold flip. rewrite Z.lxor_assoc, Z.lxor_nilpotent, Z.lxor_0_r. reflexivity.
Qed.

(** * NaN results are canonical *)

Definition canonical (f : fmt) (x : Z) : Prop := number f x \/ x = canonical_nan f.

Lemma not_nan : forall f a b, (is_nan f a || is_nan f b) = false -> is_nan f a = false /\ is_nan f b = false.
Proof. intros f a b H. apply orb_false_iff. exact H. Qed.

Lemma quantum_pos : forall f, okf f -> 0 < quantum f.
Proof.
  intros f [He Hs]. unfold quantum, bias. assert (2 <= 2 ^ (ew f - 1)) by (change 2 with (2 ^ 1) at 1; apply Z.pow_le_mono_r; lia). lia.
Qed.

Lemma pow_quantum : forall f k, okf f -> 0 <= k -> 0 < 2 ^ (k * quantum f).
Proof. intros f k Hf Hk. pose proof (quantum_pos f Hf). apply Z.pow_pos_nonneg; nia. Qed.

Ltac ranges := match goal with H : ?P |- ?P => exact H | |- okf _ => assumption end.

Lemma add_canonical : forall f rm a b, okf f -> 0 <= a < 2 ^ width f -> 0 <= b < 2 ^ width f ->
  canonical f (fst (ieee_add f rm a b)).
Proof.
  intros f rm a b Hf Ha Hb. unfold ieee_add, canonical.
  destruct (is_nan f a || is_nan f b) eqn:N; [right; reflexivity |]. apply not_nan in N. destruct N as [Na Nb].
  destruct (is_inf f a).
  - destruct (is_inf f b && _); [right; reflexivity | left; split; assumption].
  - destruct (is_inf f b); [left; split; assumption | left; apply number_rat; [exact Hf |]].
    pose proof (pow_quantum f 1 Hf ltac:(lia)) as P. rewrite Z.mul_1_l in P. exact P.
Qed.

Lemma sub_canonical : forall f rm a b, okf f -> 0 <= a < 2 ^ width f -> 0 <= b < 2 ^ width f ->
  canonical f (fst (ieee_sub f rm a b)).
Proof. intros. apply add_canonical; try assumption. apply flip_facts; assumption. Qed.

Lemma mul_canonical : forall f rm a b, okf f -> canonical f (fst (ieee_mul f rm a b)).
Proof.
  intros f rm a b Hf. unfold ieee_mul, canonical. cbv zeta.
  destruct (is_nan f a || is_nan f b); [right; reflexivity |].
  destruct (_ || _); [right; reflexivity |]. left.
  destruct (_ || _); [apply number_inf; exact Hf | apply number_rat; [exact Hf | apply pow_quantum; [exact Hf | lia]]].
Qed.

(** A number that is not zero has a positive magnitude. *)
Lemma magnitude_pos : forall f x, okf f -> is_zero f x = false -> 0 < magnitude f x.
Proof.
  intros f x [He Hs] Z0. unfold is_zero in Z0. unfold magnitude.
  assert (F : 0 <= frac f x) by (apply Z.mod_pos_bound; apply Z.pow_pos_nonneg; lia).
  assert (E : 0 <= expo f x) by (apply Z.mod_pos_bound; apply Z.pow_pos_nonneg; lia).
  destruct (expo f x =? 0) eqn:C; cbn [andb] in Z0.
  - apply Z.eqb_neq in Z0. lia.
  - apply Z.eqb_neq in C. apply Z.mul_pos_pos; [| apply Z.pow_pos_nonneg; lia].
    assert (0 < 2 ^ sw f) by (apply Z.pow_pos_nonneg; lia). lia.
Qed.

Lemma magnitude_zero : forall f x, is_zero f x = true -> magnitude f x = 0 /\ units f x = 0.
Proof.
  intros f x H. unfold is_zero in H. apply andb_prop in H. destruct H as [H1 H2]. apply Z.eqb_eq in H2.
  assert (M : magnitude f x = 0) by (unfold magnitude; rewrite H1; exact H2).
  split; [exact M |]. unfold units. rewrite M. destruct (sign f x); reflexivity.
Qed.

Lemma units_zero : forall f x, okf f -> (units f x =? 0) = is_zero f x.
Proof.
  intros f x Hf. destruct (is_zero f x) eqn:C.
  - destruct (magnitude_zero f x C) as [_ U]. rewrite U. reflexivity.
  - pose proof (magnitude_pos f x Hf C). apply Z.eqb_neq. unfold units. destruct (sign f x); lia.
Qed.

Lemma div_canonical : forall f rm a b, okf f -> canonical f (fst (ieee_div f rm a b)).
Proof.
  intros f rm a b Hf. unfold ieee_div, canonical. cbv zeta.
  destruct (is_nan f a || is_nan f b); [right; reflexivity |].
  destruct (_ || _); [right; reflexivity |]. left.
  destruct (is_inf f a); [apply number_inf; exact Hf |]. destruct (is_inf f b); [apply number_zero; exact Hf |].
  destruct (is_zero f b) eqn:Z0; [apply number_inf; exact Hf |]. apply number_rat; [exact Hf | apply magnitude_pos; assumption].
Qed.

Lemma sqrt_number : forall f rm a, okf f -> 0 <= a < 2 ^ width f -> is_nan f a = false ->
  sign f a = false \/ is_zero f a = true -> number f (fst (ieee_sqrt f rm a)).
Proof.
  intros f rm a Hf Ha Na S. unfold ieee_sqrt. rewrite Na.
  destruct (is_zero f a) eqn:Z0; [split; assumption |]. destruct S as [-> | S]; [| discriminate S].
  destruct (is_inf f a); [split; assumption |]. cbv zeta. apply number_rat; [exact Hf |].
  pose proof (quantum_pos f Hf). destruct Hf. apply Z.pow_pos_nonneg; lia.
Qed.

Lemma fma_canonical : forall f rm a b c, okf f -> 0 <= c < 2 ^ width f -> canonical f (fst (ieee_fma f rm a b c)).
Proof.
  intros f rm a b c Hf Hc. unfold ieee_fma, canonical. cbv zeta.
  destruct (is_nan f a || is_nan f b || is_nan f c) eqn:N; [right; reflexivity |]. apply orb_false_iff in N. destruct N as [_ Nc].
  destruct (_ && _ || _ && _); [right; reflexivity |].
  destruct (is_inf f a || is_inf f b).
  - destruct (_ && _); [right; reflexivity | left; apply number_inf; exact Hf].
  - left. destruct (is_inf f c); [split; assumption | apply number_rat; [exact Hf | apply pow_quantum; [exact Hf | lia]]].
Qed.

Lemma cvt_number : forall f g rm a, okf f -> okf g -> is_nan f a = false -> number g (fst (ieee_cvt f g rm a)).
Proof.
  intros f g rm a Hf Hg N. unfold ieee_cvt. rewrite N. destruct (is_inf f a); [apply number_inf; exact Hg |].
  apply number_rat; [exact Hg |]. pose proof (pow_quantum f 1 Hf ltac:(lia)) as P. rewrite Z.mul_1_l in P. exact P.
Qed.

Lemma int_number : forall g rm n, okf g -> number g (fst (ieee_of_int g rm n)).
Proof. intros. apply number_rat; [assumption | lia]. Qed.

Lemma canonical_range : forall f x, In f formats -> canonical f x -> 0 <= x < 2 ^ width f.
Proof.
  intros f x Hf [[H _] | ->]; [exact H |].
  destruct Hf as [<- | [<- | [<- | []]]]; vm_compute; split; congruence.
Qed.

(** What the code makes of a host result. *)
Lemma like_canonical : forall f r s, In f formats -> like f r s -> canonical f (fst s) ->
  (if IsNaN f (fst r) then kCanonicalNaN f else fst r) = fst s /\ snd r = snd s.
Proof.
  intros f r s Hf (L1 & L2 & L3) C. split; [| exact L1]. rewrite IsNaN_eq, canonical_eq by (try apply formats_ok; exact Hf).
  destruct C as [[_ C] | C].
  - rewrite C in L3. rewrite L3, C. reflexivity.
  - assert (N : is_nan f (fst s) = true) by (rewrite C; destruct Hf as [<- | [<- | [<- | []]]]; vm_compute; reflexivity).
    rewrite N in L3. rewrite L3, C. reflexivity.
Qed.

Lemma like_number : forall f r s, like f r s -> number f (fst s) -> r = s.
Proof.
  intros f [x y] [z t] (L1 & L2 & L3) [_ C]. cbn [fst snd] in *. rewrite C in L3. subst. reflexivity.
Qed.

(** * Rounding to nearest and towards zero is symmetric *)

Lemma round_symmetric : forall f rm s p r, okf f -> rm = 0 \/ rm = 1 -> 0 <= p -> 0 < r ->
  round_to f rm (negb s) p r = (flip f (fst (round_to f rm s p r)), snd (round_to f rm s p r)).
Proof.
  intros f rm s p r Hf Hrm Hp Hr. destruct (top_range f Hf) as [_ [T _]].
  assert (R : forall u, scaled rm (negb s) p r u = scaled rm s p r u).
  { intros u. unfold scaled, round_mag. destruct Hrm as [-> | ->]; reflexivity. }
  pose proof (round_part_range f rm s p r Hf Hp Hr) as B.
  rewrite (surjective_pairing (round_to f rm (negb s) p r)). f_equal.
  - rewrite !round_to_part. rewrite flip_with_sign by (try exact Hf; lia). f_equal.
    unfold round_part. cbv zeta. rewrite R. destruct Hrm as [-> | ->]; reflexivity.
  - unfold round_to. cbv zeta. rewrite !R. destruct (scaled rm s p r _) as [m ex]. destruct (_ <=? _); reflexivity.
Qed.

Lemma rat_symmetric : forall f rm n d zs zs', okf f -> rm = 0 \/ rm = 1 -> n <> 0 -> 0 < d ->
  round_rat f rm (- n) d zs' = (flip f (fst (round_rat f rm n d zs)), snd (round_rat f rm n d zs)).
Proof.
  intros f rm n d zs zs' Hf Hrm Hn Hd. unfold round_rat.
  replace (- n =? 0) with false by (symmetry; apply Z.eqb_neq; lia).
  replace (n =? 0) with false by (symmetry; apply Z.eqb_neq; lia). rewrite Z.abs_opp.
  replace (- n <? 0) with (negb (n <? 0)); [apply round_symmetric; try assumption; lia |].
  destruct (n <? 0) eqn:C; cbn [negb]; symmetry; [apply Z.ltb_ge; apply Z.ltb_lt in C | apply Z.ltb_lt; apply Z.ltb_ge in C]; lia.
Qed.
