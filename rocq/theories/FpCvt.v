(** Proofs about the conversion to integers. *)
From Coq Require Import ZArith Bool List Lia.
From Verif Require Import Bits IeeeSpec FpSpec IntModel FpModel FpProofs.
Import ListNotations.
Local Open Scope Z_scope.

(** * Rounding on a scaled number *)

Lemma rounds_scale : forall rm n d z k, 0 < k -> rounds rm n d z -> rounds rm (n * k) (d * k) z.
Proof.
  intros rm n d z k Hk H.
  assert (A : Z.abs (n * k - z * (d * k)) = Z.abs (n - z * d) * k).
  { replace (n * k - z * (d * k)) with ((n - z * d) * k) by ring. rewrite Z.abs_mul, (Z.abs_eq k); lia. }
  assert (B : Z.abs (z * (d * k)) = Z.abs (z * d) * k) by (replace (z * (d * k)) with (z * d * k) by ring; rewrite Z.abs_mul, (Z.abs_eq k); lia).
  assert (C : Z.abs (n * k) = Z.abs n * k) by (rewrite Z.abs_mul, (Z.abs_eq k); lia).
  unfold rounds in *. rewrite A, B, C. revert H.
  generalize (Z.abs (n - z * d)), (Z.abs (z * d)), (Z.abs n). intros x y u.
  replace (z * (d * k)) with (z * d * k) by ring.
  replace ((z + 1) * (d * k)) with ((z + 1) * d * k) by ring.
  replace ((z - 1) * (d * k)) with ((z - 1) * d * k) by ring.
  generalize (z * d), ((z + 1) * d), ((z - 1) * d). intros p q r.
  destruct rm as [| [[[? | ? |] | [? | ? |] |] | [[? | ? |] | [? | ? |] |] |] | ?]; try (intros []; fail); intro H.
  - destruct H as [H1 H2]. split; [nia |]. intro E. apply H2. nia.
  - nia.
  - destruct H as [H1 H2]. split; [nia |]. intro E. assert (2 * x = d) by nia. specialize (H2 H). nia.
  - nia.
  - destruct (Z.leb_spec 0 n), (Z.leb_spec 0 (n * k)); nia.
Qed.

(** The integer code: the number is [N / (2 * D)]; [b] keeps one fraction bit, [c] the rest. *)
Definition signed (s : bool) (x : Z) : Z := if s then - x else x.

Lemma half_bit : forall b, 0 <= b -> exists k t, b = 2 * k + t /\ 0 <= k /\ (t = 0 \/ t = 1) /\
  Z.testbit b 0 = (t =? 1) /\ Z.shiftr b 1 = k /\
  Z.shiftr (b + 1) 1 = (if t =? 1 then k + 1 else k) /\ Z.testbit (b + 1) 0 = (t =? 0) /\
  Z.shiftr (b + 2) 1 = k + 1 /\ Z.testbit (b + 2) 0 = (t =? 1) /\
  (Z.land b 3 =? 3) = (t =? 1) && Z.odd k.
Proof.
  intros b Hb. exists (b / 2), (b mod 2).
  pose proof (Z.div_mod b 2 ltac:(lia)) as E. pose proof (Z.mod_pos_bound b 2 ltac:(lia)) as R.
  assert (K : 0 <= b / 2) by (apply Z.div_pos; lia).
  assert (T : b mod 2 = 0 \/ b mod 2 = 1) by lia.
  assert (SH : forall x, Z.shiftr x 1 = x / 2) by (intro; rewrite Z.shiftr_div_pow2 by lia; reflexivity).
  assert (TB : forall x, Z.testbit x 0 = (x mod 2 =? 1)).
  { intro x. rewrite Z.bit0_odd, Zodd_mod. destruct (Zeq_bool (x mod 2) 1) eqn:Q.
    - apply Zeq_bool_eq in Q. rewrite Q. reflexivity.
    - apply Zeq_bool_neq in Q. symmetry. apply Z.eqb_neq. exact Q. }
  rewrite !SH, !TB.
  assert (L : Z.land b 3 = 2 * (b / 2 mod 2) + b mod 2).
  { change 3 with (Z.ones 2). rewrite Z.land_ones by lia. change (2 ^ 2) with (2 * 2). rewrite Z.rem_mul_r by lia. lia. }
  rewrite L, Zodd_mod. revert E K T. generalize (b / 2) (b mod 2). intros k t E K T. subst b. clear -K T.
  assert (D : forall q c, c = 0 \/ c = 1 -> (2 * q + c) / 2 = q /\ (2 * q + c) mod 2 = c).
  { intros q c Hc. split; [symmetry; apply Z.div_unique with c; lia | symmetry; apply Z.mod_unique with q; lia]. }
  assert (D1 : forall q c, c = 0 \/ c = 1 -> (2 * q + c + 2) / 2 = q + 1 /\ (2 * q + c + 2) mod 2 = c).
  { intros q c Hc. replace (2 * q + c + 2) with (2 * (q + 1) + c) by ring. apply D. exact Hc. }
  assert (C : Zeq_bool (k mod 2) 1 = (k mod 2 =? 1)) by (unfold Zeq_bool, Z.eqb; destruct (k mod 2) as [| [] |]; reflexivity).
  pose proof (Z.mod_pos_bound k 2 ltac:(lia)) as KM.
  destruct T as [-> | ->].
  - destruct (D1 k 0 ltac:(lia)) as [X Y]. destruct (D k 0 ltac:(lia)) as [X0 Y0]. destruct (D k 1 ltac:(lia)) as [X1 Y1].
    rewrite Z.add_0_r in *.
    rewrite ?X, ?Y, ?Y0, ?X0, ?X1, ?Y1.
    do 9 (split; [first [lia | reflexivity | auto] |]).
    destruct (Z.eqb_spec (2 * (k mod 2) + 0) 3); [lia | reflexivity].
  - destruct (D1 k 1 ltac:(lia)) as [X Y]. destruct (D k 1 ltac:(lia)) as [X0 Y0]. destruct (D (k + 1) 0 ltac:(lia)) as [X1 Y1].
    replace (2 * k + 1 + 1) with (2 * (k + 1) + 0) by ring.
    rewrite ?X, ?Y, ?Y0, ?X0, ?X1, ?Y1, ?C.
    do 9 (split; [first [lia | reflexivity | auto] |]).
    cbn [Z.eqb Pos.eqb andb]. destruct (Z.eqb_spec (k mod 2) 1), (Z.eqb_spec (2 * (k mod 2) + 1) 3); try reflexivity; lia.
Qed.

(** Whether the magnitude is rounded up from [2 * k + t] (in halves), [c]: more below. *)
Definition goes_up (rm : Z) (s : bool) (t : bool) (c odd : bool) : bool :=
  match rm with
  | 0 => t && (c || odd) | 1 => false | 2 => s && (t || c) | 3 => negb s && (t || c) | _ => t end.

Lemma round_base_value : forall rm s b c fl0, 0 <= rm <= 4 -> 0 <= b < 2 ^ 62 -> fl0 = 0 \/ fl0 = fNX /\ c = true ->
  let t := Z.testbit b 0 in let k := Z.shiftr b 1 in
  exists base' fl', round_base rm s b c fl0 = Some (base', fl') /\
    Z.shiftr base' 1 = (if goes_up rm s t c (Z.odd k) then k + 1 else k) /\
    (if Z.testbit base' 0 || c then fNX else fl') =
      (if c then fNX else if t && negb (rm =? 4) then fNX else 0).
Proof.
  intros rm s b c fl0 Hrm Hb Hfl.
  destruct (half_bit b (proj1 Hb)) as (k & t & Eb & Hk & Ht & B0 & S0 & S1 & B1 & S2 & B2 & L3).
  assert (W1 : wrap 64 (b + 1) = b + 1) by (apply wrap_id; unfold inw; lia).
  assert (W2 : wrap 64 (b + 2) = b + 2) by (apply wrap_id; unfold inw; lia).
  cbv zeta. rewrite S0, B0. unfold round_base, goes_up. rewrite W1, W2, B0, L3. clear W1 W2 L3.
  assert (RM : rm = 0 \/ rm = 1 \/ rm = 2 \/ rm = 3 \/ rm = 4) by lia. clear Hrm Hb Eb.
  destruct RM as [-> | [-> | [-> | [-> | ->]]]]; destruct c; destruct Ht as [-> | ->];
    destruct s; cbn [negb andb orb Z.eqb Pos.eqb];
    try (destruct (Z.odd k); cbn [negb andb orb]);
    (do 2 eexists; split; [reflexivity |]; rewrite ?S0, ?S1, ?S2, ?B0, ?B1, ?B2; cbn [orb Z.eqb Pos.eqb];
     split; [reflexivity |]; try reflexivity;
     (destruct Hfl as [-> | [_ X]]; [reflexivity | discriminate X])).
Qed.

Lemma round_value : forall rm s N D k t c r P, 0 <= rm <= 4 -> 0 < N -> 0 < D -> 0 <= k -> P = k * D ->
  N = 2 * P + Z.b2z t * D + r -> 0 <= r < D -> c = negb (r =? 0) ->
  rounds rm (signed s N) (2 * D) (signed s (if goes_up rm s t c (Z.odd k) then k + 1 else k)).
Proof.
  intros rm s N D k t c r P Hrm HN HD Hk HP EN Hr Hc.
  assert (RM : rm = 0 \/ rm = 1 \/ rm = 2 \/ rm = 3 \/ rm = 4) by lia. clear Hrm.
  assert (CR : c = true /\ 0 < r \/ c = false /\ r = 0).
  { subst c. destruct (Z.eqb_spec r 0); [right | left]; split; cbn; lia || reflexivity. }
  clear Hc.
  assert (PP : 0 <= P) by (subst P; nia).
  assert (EV : Z.even k = negb (Z.odd k)) by (rewrite Z.negb_odd; reflexivity).
  assert (EV1 : Z.even (k + 1) = Z.odd k) by (rewrite Z.add_1_r, Z.even_succ; reflexivity).
  assert (A0 : k * (2 * D) = 2 * P) by (subst P; ring).
  assert (A1 : (k + 1) * (2 * D) = 2 * P + 2 * D) by (subst P; ring).
  assert (A2 : (k + 1 + 1) * (2 * D) = 2 * P + 4 * D) by (subst P; ring).
  assert (A3 : (k - 1) * (2 * D) = 2 * P - 2 * D) by (subst P; ring).
  assert (A4 : (k + 1 - 1) * (2 * D) = 2 * P) by (subst P; ring).
  assert (B0 : - k * (2 * D) = - (2 * P)) by (subst P; ring).
  assert (B1 : - (k + 1) * (2 * D) = - (2 * P + 2 * D)) by (subst P; ring).
  assert (B2 : (- k + 1) * (2 * D) = - (2 * P) + 2 * D) by (subst P; ring).
  assert (B3 : (- (k + 1) + 1) * (2 * D) = - (2 * P)) by (subst P; ring).
  assert (B4 : (- k - 1) * (2 * D) = - (2 * P) - 2 * D) by (subst P; ring).
  assert (B5 : (- (k + 1) - 1) * (2 * D) = - (2 * P) - 4 * D) by (subst P; ring).
  clear HP. unfold goes_up, rounds, signed.
  destruct RM as [-> | [-> | [-> | [-> | ->]]]]; destruct CR as [[-> R] | [-> R]]; destruct t; destruct s;
    cbn [negb andb orb Z.b2z] in *;
    try (destruct (Z.odd k) eqn:OD; cbn [negb andb orb]);
    rewrite ?A0, ?A1, ?A2, ?A3, ?A4, ?B0, ?B1, ?B2, ?B3, ?B4, ?B5, ?Z.even_opp, ?EV, ?EV1;
    clear - PP EN HN HD Hr R Hk;
    try match goal with |- context [0 <=? ?x] => destruct (Z.leb_spec 0 x) end;
    repeat match goal with |- _ /\ _ => split end; intros; try reflexivity; try lia.
Qed.

Lemma round_exact : forall rm s N D k t c r P, 0 <= rm <= 4 -> 0 < D -> 0 <= k -> P = k * D ->
  N = 2 * P + Z.b2z t * D + r -> 0 <= r < D -> c = negb (r =? 0) ->
  (if c then fNX else if t then fNX else 0) =
  (if (if goes_up rm s t c (Z.odd k) then k + 1 else k) * (2 * D) =? N then 0 else fNX).
Proof.
  intros rm s N D k t c r P Hrm HD Hk HP EN Hr Hc.
  assert (A0 : k * (2 * D) = 2 * P) by (subst P; ring).
  assert (A1 : (k + 1) * (2 * D) = 2 * P + 2 * D) by (subst P; ring).
  assert (U : (c || t) = false -> goes_up rm s t c (Z.odd k) = false).
  { intro E. apply orb_false_iff in E. destruct E as [-> ->]. unfold goes_up.
    destruct rm as [| [[[? | ? |] | [? | ? |] |] | [[? | ? |] | [? | ? |] |] |] | ?]; cbn; try reflexivity; apply andb_false_r. }
  clear HP. subst c. destruct (Z.eqb_spec r 0) as [-> | NR]; cbn [negb] in *.
  - destruct t; cbn [Z.b2z] in EN.
    + destruct (goes_up rm s true false (Z.odd k)); rewrite ?A0, ?A1;
        match goal with |- context [?a =? N] => destruct (Z.eqb_spec a N) end; try reflexivity; lia.
    + rewrite (U eq_refl), A0. destruct (Z.eqb_spec (2 * P) N); [reflexivity | lia].
  - destruct (goes_up rm s t true (Z.odd k)); rewrite ?A0, ?A1;
      match goal with |- context [?a =? N] => destruct (Z.eqb_spec a N) end; try reflexivity; destruct t; cbn [Z.b2z] in EN; lia.
Qed.

(** * The alignment *)

Definition special_free (f : fmt) (a : Z) : Prop := is_finite f a = true /\ sig_of f a <> 0.

Lemma sig_of_range : forall f a, okf f -> 0 <= sig_of f a < 2 ^ (sw f + 1).
Proof.
  intros f a [He Hs]. unfold sig_of, frac. assert (0 < 2 ^ sw f) by (apply pow2_pos; lia).
  pose proof (Z.mod_pos_bound a (2 ^ sw f) ltac:(lia)). rewrite Z.pow_add_r by lia. change (2 ^ 1) with 2.
  destruct (expo f a =? 0); lia.
Qed.

Lemma lor_hidden : forall s F, 0 <= s -> 0 <= F < 2 ^ s -> Z.lor F (Z.shiftl 1 s) = 2 ^ s + F.
Proof.
  intros s F Hs HF. rewrite Z.lor_comm, <- Z.lxor_lor, <- Z.add_nocarry_lxor, Z.shiftl_1_l; [reflexivity | |];
    apply Z.bits_inj'; intros n Hn; rewrite Z.land_spec, Z.bits_0, Z.shiftl_1_l, Z.pow2_bits_eqb by lia;
    (destruct (Z.eqb_spec s n) as [<- | N]; [rewrite (inw_testbit_high s F s) by (unfold inw; lia); reflexivity | reflexivity]).
Qed.

Lemma align_correct : forall f a base c R fl0, In f formats -> 0 <= a -> special_free f a ->
  align f (Z.land (kExpMask f) a) (Z.land (kSigMask f) a) = (base, c, R, fl0) ->
  (0 <= R /\ exists D r, 0 < D /\ sig_of f a = D * base + r /\ 0 <= r < D /\ c = negb (r =? 0) /\
     (fl0 = 0 \/ fl0 = fNX /\ c = true) /\ 0 <= base < 2 ^ 62 /\ 2 ^ quantum f = 2 * D * 2 ^ exp_of f a) \/
  (R < 0 /\ base = sig_of f a /\ c = false /\ fl0 = 0 /\ exp_of f a = quantum f + (- R - 1)).
Proof.
  intros f a base c R fl0 Hf Ha [HF HN] E. pose proof (formats_ok f Hf) as Ok. pose proof Ok as [He Hs].
  pose proof (sig_of_range f a Ok) as SR.
  assert (QB : quantum f = bias f + sw f - 1) by reflexivity.
  assert (SW : sw f <= 52 /\ sw f + 2 <= width f /\ 1 <= bias f /\ sw f <= quantum f - 1) by (destruct Hf as [<- | [<- | [<- | []]]]; cbn; lia).
  unfold align in E. rewrite !(Z.land_comm _ a) in E. unfold kExpMask, kSigMask in E.
  rewrite land_field, land_mask in E by lia. fold (expo f a) (frac f a) in E.
  rewrite Z.shiftr_shiftl_l, Z.sub_diag, Z.shiftl_0_r in E by lia.
  replace (Z.shiftl (expo f a) (sw f) =? 0) with (expo f a =? 0) in E.
  2:{ rewrite <- (Z.shiftl_0_l (sw f)) at 2. rewrite eqb_shiftl by lia. reflexivity. }
  assert (FR : 0 <= frac f a < 2 ^ sw f) by (apply Z.mod_pos_bound, pow2_pos; lia).
  assert (ER : 0 <= expo f a) by (apply Z.mod_pos_bound, pow2_pos; lia).
  rewrite lor_hidden in E by lia.
  assert (P62 : 2 ^ (sw f + 1) <= 2 ^ 53) by (apply Z.pow_le_mono_r; lia).
  unfold sig_of, exp_of in *. destruct (Z.eqb_spec (expo f a) 0) as [E0 | E0].
  - injection E as <- <- <- <-. left. split; [lia |]. exists (2 ^ (quantum f - 1)), (frac f a).
    assert (2 ^ sw f <= 2 ^ (quantum f - 1)) by (apply Z.pow_le_mono_r; lia).
    split; [apply pow2_pos; lia |]. split; [ring |]. split; [lia |]. split; [reflexivity |].
    split; [right; split; [reflexivity | apply negb_true_iff, Z.eqb_neq; exact HN] |]. split; [lia |].
    rewrite Z.pow_0_r, Z.mul_1_r. rewrite <- (Z.pow_1_r 2) at 2. rewrite <- Z.pow_add_r by lia. f_equal. lia.
  - set (R0 := sw f - 1 - (expo f a - bias f)) in *.
    assert (PW : 0 <= R0 -> 2 ^ quantum f = 2 * 2 ^ R0 * 2 ^ (expo f a - 1)).
    { intro HR. rewrite <- (Z.pow_1_r 2) at 2. rewrite <- !Z.pow_add_r by lia. f_equal. unfold R0. lia. }
    destruct (Z.ltb_spec (width f - 1) R0) as [L | L].
    + injection E as <- <- <- <-. left. split; [lia |]. exists (2 ^ R0), (2 ^ sw f + frac f a).
      assert (2 ^ (sw f + 1) <= 2 ^ R0) by (apply Z.pow_le_mono_r; lia).
      split; [apply pow2_pos; lia |]. split; [ring |]. split; [lia |]. split; [reflexivity |].
      split; [right; split; [reflexivity | apply negb_true_iff, Z.eqb_neq; exact HN] |]. split; [lia |]. apply PW. lia.
    + destruct (Z.ltb_spec 0 R0) as [G | G].
      * rewrite Z.min_l in E by lia. rewrite Z.shiftl_1_l, land_mask, Z.shiftr_div_pow2 in E by lia.
        injection E as <- <- <- <-. left. split; [lia |].
        assert (0 < 2 ^ R0) by (apply pow2_pos; lia).
        exists (2 ^ R0), ((2 ^ sw f + frac f a) mod 2 ^ R0). split; [lia |].
        split; [apply Z.div_mod; lia |]. split; [apply Z.mod_pos_bound; lia |]. split; [reflexivity |].
        split; [left; reflexivity |]. split; [| apply PW; lia].
        split; [apply Z.div_pos; lia |]. apply Z.div_lt_upper_bound; [lia |]. nia.
      * injection E as <- <- <- <-. destruct (Z.eq_dec R0 0) as [Z0 | NZ].
        -- left. split; [lia |]. exists 1, 0. split; [lia |]. split; [ring |]. split; [lia |]. split; [reflexivity |].
           split; [left; reflexivity |]. split; [lia |]. rewrite PW by lia. rewrite Z0. reflexivity.
        -- right. split; [lia |]. repeat split. unfold R0. lia.
Qed.

(** * The shift loop *)

Lemma shift_loop_value : forall n limit u fl, 0 <= u < 2 ^ 64 ->
  shift_loop n limit u fl = if u * 2 ^ Z.of_nat n <? 2 ^ 64 then (u * 2 ^ Z.of_nat n, fl) else (wrap 64 limit, fNV).
Proof.
  induction n as [| n IH]; intros limit u fl Hu.
  - cbn [shift_loop Z.of_nat]. rewrite Z.pow_0_r, Z.mul_1_r.
    replace (u <? 2 ^ 64) with true by (symmetry; apply Z.ltb_lt; lia). reflexivity.
  - cbn [shift_loop]. rewrite Z.shiftl_mul_pow2 by lia. change (2 ^ 1) with 2.
    rewrite Nat2Z.inj_succ, Z.pow_succ_r by lia.
    assert (1 <= 2 ^ Z.of_nat n) by (pose proof (pow2_pos (Z.of_nat n)); lia).
    destruct (Z.ltb_spec u (2 ^ 63)).
    + rewrite wrap_id by (unfold inw; lia). destruct (Z.ltb_spec (u * 2) u); [lia |].
      rewrite IH by lia. replace (u * 2 * 2 ^ Z.of_nat n) with (u * (2 * 2 ^ Z.of_nat n)) by ring. reflexivity.
    + assert (W : wrap 64 (u * 2) = u * 2 - 2 ^ 64) by (unfold wrap; symmetry; apply Z.mod_unique with 1; lia).
      rewrite W. destruct (Z.ltb_spec (u * 2 - 2 ^ 64) u); [| lia].
      destruct (Z.ltb_spec (u * (2 * 2 ^ Z.of_nat n)) (2 ^ 64)); [nia | reflexivity].
Qed.

(** * The range check *)

Definition saturate (sg : bool) (w z fl : Z) (v fl' : Z) : Prop :=
  if z <? int_min sg w then v = int_min sg w /\ fl' = fNV
  else if int_max sg w <? z then v = int_max sg w /\ fl' = fNV
  else v = z /\ fl' = fl.

Lemma sgn_id_range : forall w x, 1 <= w -> - 2 ^ (w - 1) <= x < 2 ^ (w - 1) -> sgn w x = x.
Proof. intros. apply sgn_id; lia. Qed.

Lemma finish_value : forall m sg w s u fl, w = 32 \/ w = 64 -> 0 <= u < 2 ^ 64 ->
  m = Wrapv \/ (sg = true -> signed s u <> - 2 ^ (w - 1)) ->
  exists v fl', finish m sg w s u fl = Some (v, fl') /\ saturate sg w (signed s u) fl v fl'.
Proof.
  intros m sg w s u fl Hw Hu HM. unfold finish, saturate, kMax, kMin, int_min, int_max, signed in *.
  assert (W : 1 <= w) by lia.
  assert (PW : 2 ^ w = 2 * 2 ^ (w - 1)) by (destruct Hw as [-> | ->]; reflexivity).
  assert (PP : 2 ^ 31 <= 2 ^ (w - 1) <= 2 ^ 63) by (destruct Hw as [-> | ->]; cbn; lia).
  destruct sg, s; cbn [negb andb].
  - destruct (Z.eqb_spec u 0) as [-> | NU].
    + change (0 <? 0) with false. cbn [andb]. rewrite (sgn_id_range w 0) by lia. change (- 0) with 0. unfold schk.
      replace ((- 2 ^ (w - 1) <=? 0) && (0 <? 2 ^ (w - 1))) with true
        by (symmetry; apply andb_true_iff; split; [apply Z.leb_le | apply Z.ltb_lt]; lia).
      cbn [bind]. rewrite (sgn_id_range w 0) by lia. do 2 eexists. split; [reflexivity |].
      destruct (Z.ltb_spec 0 (- 2 ^ (w - 1))); [lia |]. destruct (Z.ltb_spec (2 ^ (w - 1) - 1) 0); [lia |]. split; reflexivity.
    + replace (0 <? u) with true by (symmetry; apply Z.ltb_lt; lia).
      assert (W1 : wrap 64 (- u) = 2 ^ 64 - u) by (unfold wrap; symmetry; apply Z.mod_unique with (-1); lia).
      assert (W2 : wrap 64 (- 2 ^ (w - 1)) = 2 ^ 64 - 2 ^ (w - 1)) by (unfold wrap; symmetry; apply Z.mod_unique with (-1); lia).
      rewrite W1, W2. cbn [andb].
      destruct (Z.ltb_spec (2 ^ 64 - u) (2 ^ 64 - 2 ^ (w - 1))).
      * do 2 eexists. split; [reflexivity |]. destruct (Z.ltb_spec (- u) (- 2 ^ (w - 1))); [split; reflexivity | lia].
      * destruct (Z.ltb_spec (- u) (- 2 ^ (w - 1))); [lia |]. destruct (Z.ltb_spec (2 ^ (w - 1) - 1) (- u)); [lia |].
        destruct (Z.eq_dec u (2 ^ (w - 1))) as [-> | NE].
        -- destruct HM as [-> | HM]; [| exfalso; apply HM; [reflexivity | lia]].
           assert (SG : sgn w (2 ^ (w - 1)) = - 2 ^ (w - 1)) by (destruct Hw as [-> | ->]; reflexivity).
           rewrite SG. unfold schk. rewrite Z.opp_involutive, Z.ltb_irrefl, andb_false_r. cbn [bind].
           rewrite SG, (sgn_id_range w) by lia. do 2 eexists. split; [reflexivity |]. split; reflexivity.
        -- rewrite (sgn_id_range w u) by lia. unfold schk.
           replace ((- 2 ^ (w - 1) <=? - u) && (- u <? 2 ^ (w - 1))) with true
             by (symmetry; apply andb_true_iff; split; [apply Z.leb_le | apply Z.ltb_lt]; lia).
           cbn [bind]. rewrite (sgn_id_range w) by lia. do 2 eexists. split; [reflexivity |]. split; reflexivity.
  - destruct (Z.ltb_spec u (- 2 ^ (w - 1))); [lia |]. destruct (Z.ltb_spec (2 ^ (w - 1) - 1) u).
    + do 2 eexists. split; [reflexivity |]. split; reflexivity.
    + rewrite (sgn_id_range w u) by lia. do 2 eexists. split; [reflexivity |]. split; reflexivity.
  - destruct (Z.ltb_spec (2 ^ w - 1) u).
    + do 2 eexists. split; [reflexivity |]. destruct (Z.ltb_spec (- u) 0); [split; reflexivity | lia].
    + destruct (Z.eqb_spec u 0) as [-> | NU]; cbn [negb].
      * do 2 eexists. split; [reflexivity |]. change (- 0) with 0. change (0 <? 0) with false. cbv iota.
        destruct (Z.ltb_spec (2 ^ w - 1) 0); [lia |]. unfold wrap. rewrite Z.mod_0_l by lia. cbn [Z.opp]. rewrite ?Z.mod_0_l by lia.
        split; reflexivity.
      * do 2 eexists. split; [reflexivity |]. destruct (Z.ltb_spec (- u) 0); [split; reflexivity | lia].
  - destruct (Z.ltb_spec u 0); [lia |]. destruct (Z.ltb_spec (2 ^ w - 1) u).
    + do 2 eexists. split; [reflexivity |]. split; reflexivity.
    + do 2 eexists. split; [reflexivity |]. split; [| reflexivity]. apply wrap_id. unfold inw. lia.
Qed.

(** After a lost bit. *)
Lemma finish_lost : forall m sg w s, w = 32 \/ w = 64 -> m = Wrapv \/ (sg = true -> s = true -> w <> 64) ->
  finish m sg w s (wrap 64 (if s then kMin sg w else kMax sg w)) fNV =
  Some (if s then int_min sg w else int_max sg w, fNV).
Proof.
  intros m sg w s Hw HM. destruct Hw as [-> | ->], sg, s; try reflexivity.
  destruct HM as [-> | HM]; [reflexivity | exfalso; apply HM; reflexivity].
Qed.

(** * Zero, infinity, NaN *)

Lemma pattern_split : forall f a, okf f -> 0 <= a < 2 ^ width f ->
  a = with_sign f (sign f a) (expo f a * 2 ^ sw f + frac f a).
Proof.
  intros f a Ok Ha. destruct (split_sign f a Ok Ha) as [S _]. rewrite S at 1. f_equal.
  destruct Ok as [He Hs]. assert (0 < 2 ^ sw f) by (apply pow2_pos; lia). assert (0 < 2 ^ ew f) by (apply pow2_pos; lia).
  replace (2 ^ (width f - 1)) with (2 ^ sw f * 2 ^ ew f) by (rewrite <- Z.pow_add_r by lia; f_equal; unfold width; lia).
  rewrite Z.rem_mul_r by lia. unfold expo, frac. ring.
Qed.

Lemma with_sign_inj : forall f s t m n, okf f -> 0 <= m < 2 ^ (width f - 1) -> 0 <= n < 2 ^ (width f - 1) ->
  with_sign f s m = with_sign f t n -> s = t /\ m = n.
Proof. intros f s t m n Ok Hm Hn E. unfold with_sign in E. destruct s, t; cbn [Z.b2z] in E; split; try reflexivity; lia. Qed.

Lemma inf_patterns : forall f a, In f formats -> 0 <= a < 2 ^ width f ->
  (a =? kPosInf f) = is_inf f a && negb (sign f a) /\ (a =? kNegInf f) = is_inf f a && sign f a.
Proof.
  intros f a Hf Ha. pose proof (formats_ok f Hf) as Ok.
  pose proof (pattern_split f a Ok Ha) as E.
  assert (EP : kPosInf f = with_sign f false ((2 ^ ew f - 1) * 2 ^ sw f + 0) /\ kNegInf f = with_sign f true ((2 ^ ew f - 1) * 2 ^ sw f + 0))
    by (destruct Hf as [<- | [<- | [<- | []]]]; split; reflexivity).
  destruct EP as [-> ->]. destruct Ok as [He Hs].
  assert (0 < 2 ^ sw f) by (apply pow2_pos; lia). assert (0 < 2 ^ ew f) by (apply pow2_pos; lia).
  assert (FR : 0 <= frac f a < 2 ^ sw f) by (apply Z.mod_pos_bound; lia).
  assert (ER : 0 <= expo f a < 2 ^ ew f) by (apply Z.mod_pos_bound; lia).
  assert (WW : 2 ^ (width f - 1) = 2 ^ ew f * 2 ^ sw f) by (rewrite <- Z.pow_add_r by lia; f_equal; unfold width; lia).
  assert (R1 : 0 <= expo f a * 2 ^ sw f + frac f a < 2 ^ (width f - 1)) by (rewrite WW; nia).
  assert (R2 : 0 <= (2 ^ ew f - 1) * 2 ^ sw f + 0 < 2 ^ (width f - 1)) by (rewrite WW; nia).
  assert (KEY : forall s, (a =? with_sign f s ((2 ^ ew f - 1) * 2 ^ sw f + 0)) = is_inf f a && Bool.eqb (sign f a) s).
  { intro s. unfold is_inf, special. destruct (Z.eqb_spec a (with_sign f s ((2 ^ ew f - 1) * 2 ^ sw f + 0))) as [Q | Q].
    - rewrite E in Q. apply with_sign_inj in Q; [| split; assumption | assumption | assumption].
      destruct Q as [Q1 Q2]. 
      rewrite (Z.mul_comm (expo f a)), (Z.mul_comm (2 ^ ew f - 1)) in Q2.
      apply Z.div_mod_unique in Q2; [| left; exact FR | left; lia]. destruct Q2 as [-> ->].
      rewrite !Z.eqb_refl, Q1, Bool.eqb_reflx. reflexivity.
    - symmetry. apply not_true_iff_false. intro X. apply Q.
      apply andb_true_iff in X. destruct X as [X X3]. apply andb_true_iff in X. destruct X as [X1 X2].
      apply Z.eqb_eq in X1, X2. apply Bool.eqb_prop in X3. rewrite E, X1, X2, X3. reflexivity. }
  rewrite !KEY. split; f_equal; destruct (sign f a); reflexivity.
Qed.

Lemma zero_test : forall f a, okf f -> 0 <= a -> (Z.land a (Z.lor (kExpMask f) (kSigMask f)) =? 0) = is_zero f a.
Proof.
  intros f a [He Hs] Ha. rewrite Z.land_lor_distr_r. unfold kExpMask, kSigMask, is_zero.
  rewrite land_field, land_mask by lia. fold (expo f a) (frac f a).
  assert (0 < 2 ^ sw f) by (apply pow2_pos; lia).
  assert (FR : 0 <= frac f a < 2 ^ sw f) by (apply Z.mod_pos_bound; lia).
  assert (ER : 0 <= expo f a) by (apply Z.mod_pos_bound, pow2_pos; lia).
  destruct (Z.eqb_spec (Z.lor (Z.shiftl (expo f a) (sw f)) (frac f a)) 0) as [E | E].
  - apply Z.lor_eq_0_iff in E. destruct E as [E1 E2]. rewrite E2. rewrite Z.shiftl_mul_pow2 in E1 by lia.
    assert (expo f a = 0) as -> by nia. reflexivity.
  - symmetry. apply not_true_iff_false. intro X. apply andb_true_iff in X. destruct X as [X1 X2].
    apply Z.eqb_eq in X1, X2. apply E. rewrite X1, X2, Z.shiftl_0_l. reflexivity.
Qed.

(** * The conversion *)

Lemma units_signed : forall f a, units f a = signed (sign f a) (sig_of f a * 2 ^ exp_of f a).
Proof. intros. unfold units. rewrite magnitude_split. reflexivity. Qed.

Lemma rounds_exact : forall rm z d, 0 <= rm <= 4 -> 0 < d -> rounds rm (z * d) d z.
Proof.
  intros rm z d Hrm Hd. unfold rounds. rewrite Z.sub_diag. change (Z.abs 0) with 0.
  assert (A : (z + 1) * d = z * d + d) by ring. assert (B : (z - 1) * d = z * d - d) by ring. rewrite A, B.
  assert (RM : rm = 0 \/ rm = 1 \/ rm = 2 \/ rm = 3 \/ rm = 4) by lia.
  destruct RM as [-> | [-> | [-> | [-> | ->]]]]; try (split; lia).
  destruct (0 <=? z * d); split; lia.
Qed.

Lemma half_split : forall base, 0 <= base < 2 ^ 62 ->
  base = 2 * Z.shiftr base 1 + Z.b2z (Z.testbit base 0) /\ 0 <= Z.shiftr base 1 < 2 ^ 61.
Proof.
  intros base Hb. rewrite Z.shiftr_div_pow2, Z.bit0_mod by lia. change (2 ^ 1) with 2. split; [apply Z.div_mod; lia |].
  split; [apply Z.div_pos; lia | apply Z.div_lt_upper_bound; lia].
Qed.

Lemma up_range : forall (b : bool) k, 0 <= k < 2 ^ 61 -> 0 <= (if b then k + 1 else k) < 2 ^ 64.
Proof. intros b k H. destruct b; lia. Qed.

Lemma eqb_signed : forall s z D N X, 0 < X -> (signed s z * (2 * D * X) =? signed s N * X) = (z * (2 * D) =? N).
Proof.
  intros s z D N X HX. replace (signed s z * (2 * D * X)) with (signed s (z * (2 * D)) * X) by (unfold signed; destruct s; ring).
  generalize (z * (2 * D)). intro y. destruct (Z.eqb_spec y N) as [-> | Ne]; [apply Z.eqb_refl |].
  apply Z.eqb_neq. intro E. apply Z.mul_cancel_r in E; [| lia]. unfold signed in E. destruct s; lia.
Qed.

Lemma saturate_spec : forall sg w z fl v fl', saturate sg w z fl v fl' ->
  (fl' = fNV /\ (z <? int_min sg w) || (int_max sg w <? z) = true) \/ (fl' = fl /\ (z <? int_min sg w) || (int_max sg w <? z) = false).
Proof.
  intros sg w z fl v fl' H. unfold saturate in H. destruct (z <? int_min sg w); [left; tauto |].
  destruct (int_max sg w <? z); [left | right]; tauto.
Qed.

Lemma convert_correct : forall m f sg w rm a, In f formats -> w = 32 \/ w = 64 -> 0 <= rm <= 4 ->
  0 <= a < 2 ^ width f -> m = Wrapv \/ no_overflow f sg w rm a ->
  exists v fl fl', convert m f sg w rm a = Some (Some (v, fl)) /\ to_int f sg w rm a v fl' /\
    (fl = fl' \/ rm = 4 /\ is_finite f a = true /\ tie (units f a) (2 ^ quantum f) /\ fl = 0 /\ fl' = fNX).
Proof.
  intros m f sg w rm a Hf Hw Hrm Ha HM. pose proof (formats_ok f Hf) as Ok.
  destruct (inf_patterns f a Hf Ha) as [IP IN].
  unfold convert, to_int. rewrite IsNaN_eq, IP, IN, zero_test by (try exact Ok; lia).
  destruct (is_nan f a) eqn:NAN; cbn [orb].
  { exists (kMax sg w), fNV, fNV. split; [reflexivity |]. split; [split; reflexivity | left; reflexivity]. }
  destruct (is_inf f a) eqn:INF; cbn [andb].
  { destruct (sign f a); cbn [negb].
    - exists (kMin sg w), fNV, fNV. split; [reflexivity |]. split; [split; reflexivity | left; reflexivity].
    - exists (kMax sg w), fNV, fNV. split; [reflexivity |]. split; [split; reflexivity | left; reflexivity]. }
  assert (FIN : is_finite f a = true).
  { unfold is_finite, is_nan, is_inf in *. destruct (special f a); [| reflexivity]. destruct (frac f a =? 0); discriminate. }
  assert (QP : 0 < 2 ^ quantum f) by (apply pow2_pos; destruct Hf as [<- | [<- | [<- | []]]]; cbn; lia).
  assert (PP : 0 < 2 ^ (w - 1)) by (apply pow2_pos; lia).
  assert (IR : int_min sg w <= 0 <= int_max sg w).
  { unfold int_min, int_max. assert (0 < 2 ^ w) by (apply pow2_pos; lia). destruct sg; lia. }
  destruct (is_zero f a) eqn:ZE.
  { assert (U0 : units f a = 0).
    { unfold is_zero in ZE. apply andb_true_iff in ZE. destruct ZE as [Z1 Z2]. apply Z.eqb_eq in Z2.
      unfold units, magnitude. rewrite Z1, Z2. destruct (sign f a); reflexivity. }
    exists 0, 0, 0. split; [reflexivity |]. split; [| left; reflexivity]. exists 0. rewrite U0.
    split; [exact (rounds_exact rm 0 _ Hrm QP) |].
    destruct (Z.ltb_spec 0 (int_min sg w)); [lia |]. destruct (Z.ltb_spec (int_max sg w) 0); [lia |]. split; reflexivity. }
  assert (SN : sig_of f a <> 0).
  { unfold sig_of. unfold is_zero in ZE. destruct (expo f a =? 0); [cbn [andb] in ZE; apply Z.eqb_neq; exact ZE |].
    destruct Ok. assert (0 < 2 ^ sw f) by (apply pow2_pos; lia).
    assert (0 <= frac f a) by (apply Z.mod_pos_bound; lia). lia. }
  assert (SG : negb (Z.land a (Z.shiftl 1 (width f - 1)) =? 0) = sign f a).
  { unfold sign. assert (0 <= width f - 1) by (destruct Ok; unfold width; lia). rewrite Z.shiftl_1_l.
    assert (L : Z.land a (2 ^ (width f - 1)) = if Z.testbit a (width f - 1) then 2 ^ (width f - 1) else 0).
    { apply Z.bits_inj'. intros n Hn. rewrite Z.land_spec, Z.pow2_bits_eqb by lia.
      destruct (Z.testbit a (width f - 1)) eqn:T.
      - rewrite Z.pow2_bits_eqb by lia. destruct (Z.eqb_spec (width f - 1) n) as [<- | N]; [rewrite T; reflexivity | apply andb_false_r].
      - rewrite Z.bits_0. destruct (Z.eqb_spec (width f - 1) n) as [<- | N]; [rewrite T; reflexivity | apply andb_false_r]. }
    rewrite L. destruct (Z.testbit a (width f - 1)); [| reflexivity].
    apply negb_true_iff, Z.eqb_neq. pose proof (pow2_pos (width f - 1)). lia. }
  rewrite SG. set (s := sign f a) in *.
  destruct (align f (Z.land (kExpMask f) a) (Z.land (kSigMask f) a)) as [[[base c] R] fl0] eqn:AL.
  pose proof (align_correct f a base c R fl0 Hf (proj1 Ha) (conj FIN SN) AL) as AC. clear AL.
  pose proof (sig_of_range f a Ok) as SR.
  assert (SP : 0 < sig_of f a) by (clear - SR SN; lia).
  assert (XP : 0 < 2 ^ exp_of f a) by (apply pow2_pos, exp_of_nonneg; exact Ok).
  assert (UN : units f a = signed s (sig_of f a) * 2 ^ exp_of f a) by (rewrite units_signed; unfold signed, s; destruct (sign f a); ring).
  destruct AC as [(HR & D & r & HD & EN & Hr & Hc & Hfl & Hb & EQ) | (HR & -> & -> & -> & EX)].
  - replace (0 <=? R) with true by (symmetry; apply Z.leb_le; exact HR).
    destruct (round_base_value rm s base c fl0 Hrm Hb Hfl) as (base' & fl' & RB & SV & FV).
    rewrite RB. rewrite SV, FV. clear RB.
    set (t := Z.testbit base 0) in *. set (k := Z.shiftr base 1) in *.
    destruct (half_split base Hb) as [BK K0]. fold k t in BK, K0. clearbody k t.
    set (z := if goes_up rm s t c (Z.odd k) then k + 1 else k) in *.
    assert (EN' : sig_of f a = 2 * (k * D) + Z.b2z t * D + r) by (rewrite EN, BK; ring).
    pose proof (round_value rm s (sig_of f a) D k t c r (k * D) Hrm SP HD (proj1 K0) eq_refl EN' Hr Hc) as RV.
    fold z in RV.
    pose proof (round_exact rm s (sig_of f a) D k t c r (k * D) Hrm HD (proj1 K0) eq_refl EN' Hr Hc) as RE.
    fold z in RE.
    pose proof (up_range (goes_up rm s t c (Z.odd k)) k K0) as ZR. fold z in ZR.
    assert (RU : rounds rm (units f a) (2 ^ quantum f) (signed s z)).
    { rewrite UN, EQ. apply rounds_scale; [exact XP | exact RV]. }
    assert (HM' : m = Wrapv \/ (sg = true -> signed s z <> - 2 ^ (w - 1))).
    { destruct HM as [-> | HM]; [left; reflexivity | right]. intros Hsg. exact (proj1 (HM Hsg FIN _ RU)). }
    set (FL := if c then fNX else if t && negb (rm =? 4) then fNX else 0) in *.
    destruct (finish_value m sg w s z FL Hw ZR HM') as (v & flv & FIN' & SAT).
    rewrite FIN'. cbn [bind].
    assert (FE : (if signed s z * 2 ^ quantum f =? units f a then 0 else fNX) = (if c then fNX else if t then fNX else 0)).
    { rewrite RE, UN, EQ, eqb_signed by exact XP. reflexivity. }
    set (E := if signed s z * 2 ^ quantum f =? units f a then 0 else fNX) in *.
    destruct (saturate_spec _ _ _ _ _ _ SAT) as [[-> BB] | [-> BB]].
    { exists v, fNV, fNV. split; [reflexivity |]. split; [| left; reflexivity].
      exists (signed s z). split; [exact RU |]. unfold saturate in SAT.
      destruct (signed s z <? int_min sg w); [exact SAT |]. destruct (int_max sg w <? signed s z); [exact SAT | discriminate]. }
    exists v, FL, E. split; [reflexivity |]. split.
    + exists (signed s z). split; [exact RU |]. unfold saturate in SAT.
      destruct (signed s z <? int_min sg w); [discriminate |]. destruct (int_max sg w <? signed s z); [discriminate |].
      destruct SAT as [-> _]. split; reflexivity.
    + rewrite FE. unfold FL. destruct c eqn:EC; [left; reflexivity |]. destruct t eqn:ET; [| left; reflexivity].
      destruct (Z.eqb_spec rm 4) as [R4 | R4]; cbn [negb andb]; [right | left; reflexivity].
      split; [exact R4 |]. split; [exact FIN |]. split; [| split; reflexivity].
      symmetry in Hc. apply negb_false_iff, Z.eqb_eq in Hc. subst r. cbn [Z.b2z] in EN'.
      unfold tie. rewrite UN, EQ, EN'. unfold signed. destruct s; [exists (- k - 1) | exists k]; ring.
  - replace (0 <=? R) with false by (symmetry; apply Z.leb_gt; exact HR).
    assert (HRN : 0 <= - R - 1) by (clear - HR; lia).
    assert (S64 : 2 ^ (sw f + 1) <= 2 ^ 53) by (apply Z.pow_le_mono_r; [lia | destruct Hf as [<- | [<- | [<- | []]]]; cbn; lia]).
    assert (SR64 : 0 <= sig_of f a < 2 ^ 64) by (clear - SR S64; lia).
    rewrite shift_loop_value by exact SR64. rewrite Z2Nat.id by exact HRN.
    set (L := - R - 1) in *. clearbody L.
    assert (LP : 0 < 2 ^ L) by (apply pow2_pos; exact HRN).
    set (Z0 := sig_of f a * 2 ^ L) in *. assert (ZP : 0 < Z0) by (unfold Z0; apply Z.mul_pos_pos; assumption).
    assert (EU : units f a = signed s Z0 * 2 ^ quantum f).
    { rewrite UN, EX, Z.pow_add_r by (try exact HRN; destruct Hf as [<- | [<- | [<- | []]]]; cbn; discriminate).
      unfold signed, Z0. destruct s; ring. }
    assert (RU : rounds rm (units f a) (2 ^ quantum f) (signed s Z0)) by (rewrite EU; apply rounds_exact; assumption).
    assert (FE : (if signed s Z0 * 2 ^ quantum f =? units f a then 0 else fNX) = 0) by (rewrite EU, Z.eqb_refl; reflexivity).
    destruct (Z.ltb_spec Z0 (2 ^ 64)) as [B | B].
    + assert (HM' : m = Wrapv \/ (sg = true -> signed s Z0 <> - 2 ^ (w - 1))).
      { destruct HM as [-> | HM]; [left; reflexivity | right]. intros Hsg. exact (proj1 (HM Hsg FIN _ RU)). }
      destruct (finish_value m sg w s Z0 0 Hw (conj (Z.lt_le_incl _ _ ZP) B) HM') as (v & flv & FIN' & SAT).
      rewrite FIN'. cbn [bind]. exists v, flv, flv. split; [reflexivity |]. split; [| left; reflexivity].
      exists (signed s Z0). split; [exact RU |]. rewrite FE. exact SAT.
    + assert (HM' : m = Wrapv \/ (sg = true -> s = true -> w <> 64)).
      { destruct HM as [-> | HM]; [left; reflexivity | right]. intros Hsg Hs W64.
        pose proof (proj2 (HM Hsg FIN _ RU) W64) as X. rewrite Hs in X. cbn [signed] in X. clear - X B. lia. }
      rewrite finish_lost by assumption. cbn [bind].
      exists (if s then int_min sg w else int_max sg w), fNV, fNV. split; [reflexivity |]. split; [| left; reflexivity].
      exists (signed s Z0). split; [exact RU |].
      assert (MM : - 2 ^ 63 <= int_min sg w /\ int_max sg w < 2 ^ 64) by (unfold int_min, int_max; destruct Hw as [-> | ->], sg; cbn; lia).
      clear - MM B ZP FE IR. unfold signed in *. destruct s.
      * destruct (Z.ltb_spec (- Z0) (int_min sg w)); [split; reflexivity | lia].
      * destruct (Z.ltb_spec Z0 (int_min sg w)); [lia |]. destruct (Z.ltb_spec (int_max sg w) Z0); [split; reflexivity | lia].
Qed.
