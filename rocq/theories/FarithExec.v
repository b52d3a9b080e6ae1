(** The instructions against the specification. *)
From Coq Require Import ZArith Bool List Lia.
From Verif Require Import Bits IeeeSpec FpSpec IntModel FpModel FpProofs FpCvt FpWiden FpExec FarithSpec FarithModel FarithProofs.
Import ListNotations.
Local Open Scope Z_scope.

Definition sd (f : fmt) : Prop := f = single \/ f = double.
Lemma sd_formats : forall f, sd f -> In f formats.
Proof. intros f [-> | ->]; [exact in_single | exact in_double]. Qed.
Lemma sd_ok : forall f, sd f -> okf f.
Proof. intros f H. apply formats_ok, sd_formats, H. Qed.

Lemma host_rm_id : forall rm, 0 <= rm <= 3 -> host_rm rm = rm.
Proof. intros rm H. assert (rm = 0 \/ rm = 1 \/ rm = 2 \/ rm = 3) as [-> | [-> | [-> | ->]]] by lia; reflexivity. Qed.

(** Boxing of results of single and double. *)
Lemma nanbox_sd : forall f old v, sd f -> reg old -> 0 <= v < 2 ^ width f -> nanbox 64 (width f) old v = box f v.
Proof.
  intros f old v [-> | ->] Ho Hv; [apply nanbox_single; exact Hv |].
  change (nanbox 64 (width double) old v) with (set_low 64 old v). rewrite set_low_all by (try exact Ho; lia).
  rewrite box_double. unfold wrap. apply Z.mod_small. exact Hv.
Qed.

Lemma rm_read : forall s i rm, nth_error s i = Some rm -> 0 <= rm < 2 ^ 32 -> get s i 32 = Some rm.
Proof. intros s i rm H Hr. rewrite (get_at s i 32 rm H). rewrite Z.mod_small by exact Hr. reflexivity. Qed.

Lemma binary_correct : forall dyn f op spec rm mode a b old, sd f -> 0 <= rm < 2 ^ 32 -> resolve dyn rm = Some mode ->
  reg a -> reg b -> reg old ->
  like f (op mode (unbox f a) (unbox f b)) spec -> canonical f (fst spec) ->
  binary_float_nanbox dyn f op [a; b; rm] old = Some (Wrote (box f (fst spec)) (snd spec)).
Proof.
  intros dyn f op spec rm mode a b old Hf Hrm HR Ha Hb Ho L C. pose proof (sd_formats f Hf) as Hin. unfold binary_float_nanbox.
  rewrite (source_read f _ [a; b; rm] 0 a Hin eq_refl Ha) by (left; apply canonical_eq; exact Hin).
  rewrite (source_read f _ [a; b; rm] 1 b Hin eq_refl Hb) by (left; apply canonical_eq; exact Hin).
  rewrite (rm_read [a; b; rm] 2 rm eq_refl Hrm). cbn [bind]. rewrite HR.
  destruct (like_canonical f _ _ Hin L C) as [E1 E2]. destruct (op mode _ _) as [v fl]. cbn [fst snd] in E1, E2.
  rewrite E1, E2. rewrite nanbox_sd by (try assumption; apply canonical_range; assumption). reflexivity.
Qed.

(** * Square root *)

Lemma host_zero_eq : forall f a, sd f -> host_eq f a 0 = negb (is_nan f a) && is_zero f a.
Proof.
  intros f a Hf. rewrite zero_cmp by (apply sd_formats; exact Hf). rewrite units_zero by (apply sd_ok; exact Hf). reflexivity.
Qed.

Lemma host_zero_lt : forall f a, sd f -> host_lt f a 0 = negb (is_nan f a) && (sign f a && negb (is_zero f a)).
Proof.
  intros f a Hf. pose proof (sd_ok f Hf) as Ho. unfold host_lt.
  replace (is_nan f 0) with false by (destruct Hf as [-> | ->]; reflexivity).
  replace (units f 0) with 0 by (destruct Hf as [-> | ->]; reflexivity). cbn [negb]. rewrite andb_true_r. f_equal.
  destruct (is_zero f a) eqn:Z0.
  - destruct (magnitude_zero f a Z0) as [_ U]. rewrite U, andb_false_r. reflexivity.
  - rewrite andb_true_r. pose proof (magnitude_pos f a Ho Z0). unfold units. destruct (sign f a); [apply Z.ltb_lt | apply Z.ltb_ge]; lia.
Qed.

Lemma qnan_flag : forall f a, sd f -> is_nan f a = true -> flag (negb (IsQNaN f a)) = if is_snan f a then fNV else 0.
Proof.
  intros f a Hf N. unfold IsQNaN, is_snan, flag. rewrite IsNaN_eq by (apply sd_ok; exact Hf). rewrite N. cbn [andb].
  destruct (Z.testbit a (sw f - 1)); reflexivity.
Qed.

Lemma sqrt_correct : forall H wide dyn f rm mode a old, sd f ->
  (forall x, 0 <= x < 2 ^ width f -> is_nan f x = false -> is_zero f x = false -> sign f x = false -> sqrt_call H wide f mode x = ieee_sqrt f mode x) ->
  0 <= rm < 2 ^ 32 -> resolve dyn rm = Some mode -> 0 <= mode <= 3 -> reg a -> reg old ->
  exec_sqrt H wide dyn f [a; rm] old =
  Some (Wrote (box f (fst (ieee_sqrt f mode (unbox f a)))) (snd (ieee_sqrt f mode (unbox f a)))).
Proof.
  intros H wide dyn f rm mode a old Hf HC Hrm HR Hm Ha Ho. pose proof (sd_formats f Hf) as Hin. pose proof (sd_ok f Hf) as Hok.
  unfold exec_sqrt.
  rewrite (source_read f _ [a; rm] 0 a Hin eq_refl Ha) by (left; apply canonical_eq; exact Hin). cbn [bind].
  pose proof (unbox_range f a Hin) as Hx. set (x := unbox f a) in *. clearbody x. cbv zeta.
  rewrite host_zero_lt, host_zero_eq, IsNaN_eq by assumption.
  rewrite canonical_eq by exact Hin.
  assert (KC : 0 <= canonical_nan f < 2 ^ width f) by (apply canonical_range; [exact Hin | right; reflexivity]).
  destruct (is_nan f x) eqn:N; cbn [orb negb andb].
  - rewrite nanbox_sd, qnan_flag by assumption. unfold ieee_sqrt. rewrite N. reflexivity.
  - destruct (is_zero f x) eqn:Z0.
    + rewrite andb_false_r. rewrite nanbox_sd by assumption. unfold ieee_sqrt. rewrite N, Z0. reflexivity.
    + rewrite andb_true_r. destruct (sign f x) eqn:S.
      * rewrite nanbox_sd by assumption. unfold ieee_sqrt. rewrite N, Z0, S. unfold IsQNaN. rewrite IsNaN_eq by exact Hok. rewrite N. reflexivity.
      * rewrite (rm_read [a; rm] 1 rm eq_refl Hrm). cbn [bind]. rewrite HR.
        assert (NB : number f (fst (ieee_sqrt f mode x))) by (apply sqrt_number; try assumption; left; exact S).
        assert (C : sqrt_call H wide f (host_rm mode) x = ieee_sqrt f mode x).
        { rewrite host_rm_id by exact Hm. apply HC; assumption. }
        rewrite C. destruct (ieee_sqrt f mode x) as [v fl]. cbn [fst snd] in *.
        rewrite nanbox_sd by (try assumption; apply NB). reflexivity.
Qed.

(** * Fused multiply-add *)

Lemma ternary_correct : forall dyn f op spec rm mode a b c old, sd f -> 0 <= rm < 2 ^ 32 -> resolve dyn rm = Some mode ->
  boxed f a = true -> boxed f b = true -> boxed f c = true -> reg old ->
  op mode (unbox f a) (unbox f b) (unbox f c) = spec -> 0 <= fst spec < 2 ^ width f ->
  ternary_float_nanbox dyn f op [a; b; c; rm] old = Some (Wrote (box f (fst spec)) (snd spec)).
Proof.
  intros dyn f op spec rm mode a b c old Hf Hrm HR Ba Bb Bc Ho E R. pose proof (sd_formats f Hf) as Hin. unfold ternary_float_nanbox.
  rewrite (read_low f [a; b; c; rm] 0 a Hin eq_refl Ba), (read_low f [a; b; c; rm] 1 b Hin eq_refl Bb),
    (read_low f [a; b; c; rm] 2 c Hin eq_refl Bc).
  rewrite (rm_read [a; b; c; rm] 3 rm eq_refl Hrm). cbn [bind]. rewrite HR, E. destruct spec as [v fl]. cbn [fst snd] in *.
  rewrite nanbox_sd by assumption. reflexivity.
Qed.

Lemma itz : forall f a b, sd f -> inf_times_zero f a b = (is_inf f a && is_zero f b) || (is_zero f a && is_inf f b).
Proof.
  intros f a b Hf. unfold inf_times_zero. rewrite !IsInf_eq by (apply sd_ok; exact Hf). rewrite !host_zero_eq by exact Hf.
  rewrite (andb_comm (is_zero f a)). f_equal; f_equal;
    match goal with |- negb (is_nan f ?x) && is_zero f ?x = _ => destruct (is_zero f x) eqn:Z0; [| apply andb_false_r] end;
    unfold is_zero in Z0; apply andb_prop in Z0; destruct Z0 as [_ Z0]; unfold is_nan; rewrite Z0; cbn [negb]; rewrite andb_false_r; reflexivity.
Qed.

Lemma opt_flip_facts : forall f n x, okf f -> 0 <= x < 2 ^ width f ->
  sign f (opt_flip f n x) = xorb n (sign f x) /\ 0 <= opt_flip f n x < 2 ^ width f /\
  is_nan f (opt_flip f n x) = is_nan f x /\ is_snan f (opt_flip f n x) = is_snan f x /\
  is_inf f (opt_flip f n x) = is_inf f x /\ is_zero f (opt_flip f n x) = is_zero f x /\
  units f (opt_flip f n x) = if n then - units f x else units f x.
Proof.
  intros f [|] x Hf Hx; cbn [opt_flip].
  - destruct (flip_facts f x Hf Hx) as (A1 & _ & _ & A4 & A5 & A6 & A7 & A8 & _ & A10 & _). rewrite xorb_true_l. repeat split; assumption || apply A4.
  - rewrite xorb_false_l. repeat split; try reflexivity; apply Hx.
Qed.

Lemma fma_nv : forall f rm a b c, (is_inf f a && is_zero f b) || (is_zero f a && is_inf f b) = true ->
  snd (ieee_fma f rm a b c) = fNV.
Proof.
  intros f rm a b c H. unfold ieee_fma. cbv zeta. rewrite H, orb_true_r.
  destruct (is_nan f a || is_nan f b || is_nan f c); reflexivity.
Qed.

Lemma fma_s_correct : forall H np na mode a b c, host_ok H -> 0 <= mode <= 3 ->
  0 <= a < 2 ^ width single -> 0 <= b < 2 ^ width single -> 0 <= c < 2 ^ width single ->
  op_fma_s H false np na mode a b c = ieee_fma single mode (opt_flip single np a) b (opt_flip single na c).
Proof.
  intros H np na mode a b c HH Hm Ha Hb Hc. assert (Hf : sd single) by (left; reflexivity). pose proof (sd_ok _ Hf) as Hok.
  destruct (opt_flip_facts single np a Hok Ha) as (_ & Ra & _ & _ & Ia & Za & _).
  destruct (opt_flip_facts single na c Hok Hc) as (_ & Rc & _).
  unfold op_fma_s. rewrite host_rm_id by exact Hm. unfold fma_call. cbn [andb].
  rewrite !neg_flip by exact Hok. fold (opt_flip single np a). fold (opt_flip single na c).
  rewrite itz by exact Hf. rewrite <- Ia, <- Za.
  set (x := opt_flip single np a) in *. set (z := opt_flip single na c) in *. clearbody x z.
  assert (L : like single (h_fma H single mode x b z) (ieee_fma single mode x b z))
    by (apply (HH single mode x b z Hf Hm Ra Hb Rc)).
  pose proof (fma_canonical single mode x b z Hok Rc) as C.
  destruct (like_canonical single _ _ (sd_formats _ Hf) L C) as [E1 E2].
  destruct (h_fma H single mode x b z) as [v fl]. cbn [fst snd] in E1, E2. unfold CanonicalizeNaN. rewrite E1, E2.
  rewrite (surjective_pairing (ieee_fma single mode x b z)) at 3. f_equal.
  destruct (_ || _) eqn:IZ; cbn [flag]; [| apply Z.lor_0_l]. rewrite fma_nv by exact IZ. reflexivity.
Qed.

(** ** The double family *)

Lemma top_bit : forall x, 0 <= x < 2 ^ 64 -> Z.shiftr x 63 = Z.b2z (Z.testbit x 63).
Proof.
  intros x Hx. rewrite Z.testbit_spec' by lia. rewrite Z.shiftr_div_pow2 by lia.
  assert (0 <= x / 2 ^ 63 < 2) by (split; [apply Z.div_pos; lia | apply Z.div_lt_upper_bound; lia]).
  rewrite Z.mod_small by assumption. reflexivity.
Qed.

Lemma fma_both_zero : forall mode a b c,
  is_nan double a = false -> is_nan double b = false -> is_nan double c = false ->
  is_inf double a = false -> is_inf double b = false -> is_zero double c = true -> is_zero double a = true \/ is_zero double b = true ->
  ieee_fma double mode a b c =
  (zero double (zero_sum_sign mode (xorb (sign double a) (sign double b)) (sign double c)), 0).
Proof.
  intros mode a b c Na Nb Nc Ia Ib Zc Zab. unfold ieee_fma. cbv zeta. rewrite Na, Nb, Nc, Ia, Ib. cbn [orb andb]. rewrite andb_false_r.
  replace (is_inf double c) with false.
  2:{ symmetry. unfold is_inf, special. unfold is_zero in Zc. apply andb_prop in Zc. destruct Zc as [Zc _]. apply Z.eqb_eq in Zc. rewrite Zc. reflexivity. }
  destruct (magnitude_zero _ _ Zc) as [_ ->].
  replace (units double a * units double b) with 0
    by (destruct Zab as [Z0 | Z0]; destruct (magnitude_zero _ _ Z0) as [_ ->]; ring).
  reflexivity.
Qed.

Lemma zero_not_inf : forall f x, okf f -> is_zero f x = true -> is_inf f x = false.
Proof.
  intros f x [He Hs] Z0. unfold is_inf, special. unfold is_zero in Z0. apply andb_prop in Z0. destruct Z0 as [Z0 _]. apply Z.eqb_eq in Z0. rewrite Z0.
  assert (4 <= 2 ^ ew f) by (change 4 with (2 ^ 2); apply Z.pow_le_mono_r; lia).
  replace (0 =? 2 ^ ew f - 1) with false by (symmetry; apply Z.eqb_neq; lia). reflexivity.
Qed.

Lemma zero_not_nan : forall f x, is_zero f x = true -> is_nan f x = false.
Proof.
  intros f x Z0. unfold is_zero in Z0. apply andb_prop in Z0. destruct Z0 as [_ Z0]. unfold is_nan. rewrite Z0. apply andb_false_r.
Qed.

(** With a zero addend and a product that is not zero the addend does not matter. *)
Lemma fma_zero_addend : forall mode a b c,
  is_nan double a = false -> is_nan double b = false -> is_zero double c = true ->
  (is_zero double a && negb (is_inf double b)) || (is_zero double b && negb (is_inf double a)) = false ->
  ieee_fma double mode a b c = ieee_mul double mode a b.
Proof.
  intros mode a b c Na Nb Zc NZ. unfold ieee_fma, ieee_mul. cbv zeta. rewrite Na, Nb, (zero_not_nan _ _ Zc). cbn [orb].
  rewrite (zero_not_inf double c fmt_facts_double Zc). cbn [andb].
  destruct (is_inf double a && is_zero double b || is_zero double a && is_inf double b); [reflexivity |].
  destruct (is_inf double a || is_inf double b) eqn:I; [reflexivity |]. apply orb_false_iff in I. destruct I as [Ia Ib].
  rewrite Ia, Ib in NZ. cbn [negb] in NZ. rewrite !andb_true_r in NZ. apply orb_false_iff in NZ. destruct NZ as [Za Zb].
  destruct (magnitude_zero _ _ Zc) as [_ ->]. rewrite Z.mul_0_l, Z.add_0_r. unfold round_rat.
  replace (units double a * units double b =? 0) with false; [reflexivity |]. symmetry. apply Z.eqb_neq.
  rewrite <- (units_zero double a fmt_facts_double) in Za. rewrite <- (units_zero double b fmt_facts_double) in Zb.
  apply Z.eqb_neq in Za. apply Z.eqb_neq in Zb. intros E. apply Z.mul_eq_0 in E. destruct E; contradiction.
Qed.

Definition canon2 (r : Z * Z) : Z * Z := (CanonicalizeNaN double (fst r), snd r).

Lemma mul_nv : forall f rm a b, (is_inf f a && is_zero f b) || (is_zero f a && is_inf f b) = true -> snd (ieee_mul f rm a b) = fNV.
Proof.
  intros f rm a b H. unfold ieee_mul. cbv zeta. rewrite H. destruct (is_nan f a || is_nan f b) eqn:N; [| reflexivity].
  exfalso. unfold is_inf, is_zero, is_nan in *. destruct (special f a), (special f b), (expo f a =? 0), (expo f b =? 0), (frac f a =? 0), (frac f b =? 0);
    cbn in *; discriminate.
Qed.

Lemma fma_d_core : forall mode np na a b c c_sign inf_c zf prod full,
  0 <= a < 2 ^ 64 -> 0 <= b < 2 ^ 64 -> 0 <= c < 2 ^ 64 ->
  is_snan double a = false -> is_snan double b = false -> is_snan double c = false ->
  (is_inf double c = true -> inf_c = opt_flip double na c) ->
  (is_zero double c = true -> is_zero double a = true /\ is_inf double b = false \/ is_zero double b = true /\ is_inf double a = false ->
   zf (Z.b2z (xorb (sign double a) (sign double b)) =? c_sign) =
   zero double (zero_sum_sign mode (xorb (xorb np (sign double a)) (sign double b)) (xorb na (sign double c)))) ->
  canon2 prod = ieee_mul double mode (opt_flip double np a) b ->
  (is_nan double a = false -> is_nan double b = false -> is_nan double c = false -> is_zero double c = false ->
   ~ (is_inf double c = true /\ is_inf double a = false /\ is_inf double b = false) ->
   canon2 full = ieee_fma double mode (opt_flip double np a) b (opt_flip double na c)) ->
  fma_d_cases a b c c_sign inf_c zf prod full = ieee_fma double mode (opt_flip double np a) b (opt_flip double na c).
Proof.
  intros mode np na a b c c_sign inf_c zf prod full Ha Hb Hc Sa Sb Sc HI HZ HP HF.
  assert (Hf : sd double) by (right; reflexivity). pose proof fmt_facts_double as Hok.
  destruct (opt_flip_facts double np a Hok Ha) as (Ga & Ra & Na' & Sa' & Ia & Za & _).
  destruct (opt_flip_facts double na c Hok Hc) as (Gc & Rc & Nc' & Sc' & Ic & Zc & _).
  set (x := opt_flip double np a) in *. set (z := opt_flip double na c) in *. clearbody x z.
  assert (KC : forall v, is_nan double v = true -> CanonicalizeNaN double v = canonical_nan double).
  { intros v Hv. unfold CanonicalizeNaN. rewrite IsNaN_eq by exact Hok. rewrite Hv. apply canonical_eq. exact in_double. }
  assert (NZ : forall u v, is_nan double u = true -> is_inf double u && v = false /\ is_zero double u && v = false).
  { intros u v Hu. unfold is_nan in Hu. apply andb_prop in Hu. destruct Hu as [H1 H2]. unfold is_inf, is_zero. apply negb_true_iff in H2. rewrite H2, !andb_false_r. split; reflexivity. }
  unfold fma_d_cases. rewrite !IsNaN_eq, !IsInf_eq, itz, !host_zero_eq by (try exact Hok; exact Hf).
  destruct (is_nan double a) eqn:Na.
  { rewrite KC by exact Na. unfold ieee_fma. cbv zeta. rewrite Na', Sa', Sb, Sc', Sa, Sc. cbn [orb].
    destruct (NZ x (is_zero double b) Na') as [-> _]. destruct (NZ x (is_inf double b) Na') as [_ ->]. reflexivity. }
  destruct (is_nan double b) eqn:Nb.
  { rewrite KC by exact Nb. unfold ieee_fma. cbv zeta. rewrite Na', Nb, Sa', Sb, Sc', Sa, Sc. cbn [orb].
    rewrite (andb_comm (is_inf double x)), (andb_comm (is_zero double x)).
    destruct (NZ b (is_inf double x) Nb) as [_ ->]. destruct (NZ b (is_zero double x) Nb) as [-> _]. reflexivity. }
  rewrite <- Ia, <- Za in *. cbn [negb andb].
  destruct (is_nan double c) eqn:Nc.
  { rewrite KC by exact Nc. unfold ieee_fma, or_flags. cbv zeta. rewrite Na', Nb, Nc', Sa', Sb, Sc', Sa, Sc. cbn [orb fst snd].
    rewrite Z.lor_0_r. reflexivity. }
  destruct (is_inf double c && negb (is_inf double x) && negb (is_inf double b)) eqn:IC.
  { apply andb_prop in IC. destruct IC as [IC Ib]. apply andb_prop in IC. destruct IC as [IC Ix].
    apply negb_true_iff in Ib. apply negb_true_iff in Ix. rewrite (HI IC). unfold ieee_fma, or_flags. cbv zeta.
    rewrite Na', Nb, Nc', Ib, Ix, Ic, IC. cbn [orb andb fst snd]. rewrite andb_false_r. reflexivity. }
  cbn [negb andb].
  destruct (is_zero double c) eqn:C0.
  - destruct ((is_zero double x && negb (is_inf double b)) || (is_zero double b && negb (is_inf double x))) eqn:P0.
    + assert (P1 : is_zero double x = true /\ is_inf double b = false \/ is_zero double b = true /\ is_inf double x = false).
      { apply orb_prop in P0. destruct P0 as [P0 | P0]; apply andb_prop in P0; destruct P0 as [P2 P3]; apply negb_true_iff in P3; [left | right]; split; assumption. }
      assert (Fx : is_inf double x = false /\ is_inf double b = false).
      { destruct P1 as [[P2 P3] | [P2 P3]]; split; try exact P3; apply zero_not_inf; assumption. }
      destruct Fx as [Ix Ib].
      rewrite (fma_both_zero mode x b z); try assumption.
      2:{ destruct P1 as [[P2 _] | [P2 _]]; [left | right]; exact P2. }
      rewrite Ix, Ib. cbn [andb]. rewrite andb_false_r. cbn [orb flag]. unfold or_flags. cbn [fst snd]. rewrite Ga, Gc.
      rewrite (top_bit (Z.lxor a b)) by exact (inw_lxor 64 a b ltac:(discriminate) Ha Hb). rewrite Z.lxor_spec.
      change (Z.testbit a 63) with (sign double a). change (Z.testbit b 63) with (sign double b).
      f_equal. apply HZ; [reflexivity |]. exact P1.
    + rewrite fma_zero_addend by assumption. unfold or_flags. cbn [fst snd].
      fold (canon2 prod). change (CanonicalizeNaN double (fst prod)) with (fst (canon2 prod)). change (snd prod) with (snd (canon2 prod)). rewrite HP.
      rewrite (surjective_pairing (ieee_mul double mode x b)) at 3. f_equal.
      destruct (is_inf double x && is_zero double b || is_zero double x && is_inf double b) eqn:IZ; cbn [flag]; [| apply Z.lor_0_l]. rewrite mul_nv by exact IZ. reflexivity.
  - unfold or_flags. cbn [fst snd]. change (CanonicalizeNaN double (fst full)) with (fst (canon2 full)). change (snd full) with (snd (canon2 full)).
    rewrite HF; try reflexivity.
    2:{ intros (I1 & I2 & I3). rewrite I1, I2, I3 in IC. discriminate IC. }
    rewrite (surjective_pairing (ieee_fma double mode x b z)) at 3. f_equal.
    destruct (is_inf double x && is_zero double b || is_zero double x && is_inf double b) eqn:IZ; cbn [flag]; [| apply Z.lor_0_l]. rewrite fma_nv by exact IZ. reflexivity.
Qed.

(** The negated product and addend: the negated result, in the symmetric modes. *)
Lemma fma_negated : forall mode a b w,
  0 <= a < 2 ^ 64 -> 0 <= b < 2 ^ 64 -> 0 <= w < 2 ^ 64 ->
  is_nan double a = false -> is_nan double b = false -> is_nan double w = false ->
  (is_inf double a = false -> is_inf double b = false -> is_inf double w = false ->
   (mode = 0 \/ mode = 1) /\ units double a * units double b + units double w * 2 ^ quantum double <> 0) ->
  let r := ieee_fma double mode a b w in
  ieee_fma double mode (flip double a) b (flip double w) =
  (if is_nan double (fst r) then canonical_nan double else flip double (fst r), snd r).
Proof.
  intros mode a b w Ha Hb Hw Na Nb Nw HS. cbv zeta. pose proof fmt_facts_double as Hok.
  destruct (flip_facts double a Hok Ha) as (A1 & _ & _ & _ & A5 & _ & A7 & A8 & _ & A10 & _).
  destruct (flip_facts double w Hok Hw) as (W1 & _ & _ & _ & W5 & _ & W7 & W8 & _ & W10 & _).
  unfold ieee_fma. cbv zeta. rewrite A1, A5, A7, A8, A10, W1, W5, W7, W10, Na, Nb, Nw. cbn [orb].
  destruct (is_inf double a && is_zero double b || is_zero double a && is_inf double b); [reflexivity |].
  assert (X : xorb (negb (sign double a)) (sign double b) = negb (xorb (sign double a) (sign double b)))
    by (destruct (sign double a), (sign double b); reflexivity).
  rewrite X. set (s := xorb (sign double a) (sign double b)). clearbody s.
  destruct (is_inf double a || is_inf double b) eqn:I.
  - replace (Bool.eqb (negb s) (negb (sign double w))) with (Bool.eqb s (sign double w)) by (destruct s, (sign double w); reflexivity).
    destruct (is_inf double w && negb (Bool.eqb s (sign double w))); [reflexivity |]. cbn [fst snd].
    destruct (number_inf double s Hok) as [_ ->]. f_equal. symmetry. apply flip_with_sign; [exact Hok |].
    destruct (top_range double Hok) as (T1 & T2 & _). unfold top in *. split; [vm_compute; discriminate | exact T2].
  - apply orb_false_iff in I. destruct I as [Ia Ib]. destruct (is_inf double w) eqn:Iw.
    + cbn [fst snd]. rewrite Nw. reflexivity.
    + destruct (HS Ia Ib eq_refl) as [HM HN].
      assert (P : 0 < 2 ^ (2 * quantum double)) by exact (pow_quantum double 2 Hok ltac:(clear; lia)).
      destruct (number_rat double mode (units double a * units double b + units double w * 2 ^ quantum double) (2 ^ (2 * quantum double))
                  (zero_sum_sign mode s (sign double w)) Hok P) as [_ ->].
      rewrite <- (rat_symmetric double mode _ _ _ (zero_sum_sign mode (negb s) (negb (sign double w))) Hok HM HN P). f_equal. ring.
Qed.

Lemma like_canon2 : forall r s, like double r s -> canonical double (fst s) -> canon2 r = s.
Proof.
  intros [x y] s L C. destruct (like_canonical double _ _ in_double L C) as [E1 E2]. unfold canon2, CanonicalizeNaN. cbn [fst snd] in *.
  rewrite E1, E2. symmetry. apply surjective_pairing.
Qed.

Lemma like_negated : forall r s, like double r s -> canonical double (fst s) ->
  canon2 (neg double (fst r), snd r) = (if is_nan double (fst s) then canonical_nan double else flip double (fst s), snd s).
Proof.
  intros [x y] [v t] (L1 & L2 & L3) C. cbn [fst snd] in *. pose proof fmt_facts_double as Hok. unfold canon2, CanonicalizeNaN. cbn [fst snd].
  rewrite neg_flip by exact Hok. rewrite IsNaN_eq by exact Hok. destruct (flip_facts double x Hok L2) as (_ & _ & _ & _ & -> & _).
  subst y. destruct (is_nan double v) eqn:N.
  - rewrite L3, canonical_eq by exact in_double. reflexivity.
  - subst x. rewrite N. reflexivity.
Qed.

Lemma finite_of : forall f x, is_nan f x = false -> is_inf f x = false -> is_finite f x = true.
Proof. intros f x N I. unfold is_nan, is_inf, is_finite in *. destruct (special f x), (frac f x =? 0); cbn in *; congruence. Qed.

Lemma zero_pattern : forall c, 0 <= c < 2 ^ 64 -> is_zero double c = true -> c = zero double (sign double c).
Proof.
  intros c Hc Z0. apply zero_patterns; [exact fmt_facts_double | exact Hc |]. apply magnitude_zero. exact Z0.
Qed.

Lemma fma_d_correct : forall H np na mode a b c, host_ok H -> 0 <= mode <= 3 ->
  0 <= a < 2 ^ 64 -> 0 <= b < 2 ^ 64 -> 0 <= c < 2 ^ 64 -> fma_safe np na mode a b c ->
  op_fma_d H np na mode a b c = ieee_fma double mode (opt_flip double np a) b (opt_flip double na c).
Proof.
  intros H np na mode a b c HH Hm Ha Hb Hc (Sa & Sb & Sc & SZ & SN). assert (Hf : sd double) by (right; reflexivity). pose proof fmt_facts_double as Hok.
  assert (Fa : 0 <= flip double a < 2 ^ 64) by (apply flip_facts; assumption).
  assert (Fc : 0 <= flip double c < 2 ^ 64) by (apply flip_facts; assumption).
  assert (M : forall x, 0 <= x < 2 ^ 64 -> canon2 (h_mul H double mode x b) = ieee_mul double mode x b).
  { intros x Hx. apply like_canon2; [apply (HH double mode x b b Hf Hm Hx Hb Hb) | apply mul_canonical; exact Hok]. }
  assert (F : forall x w, 0 <= x < 2 ^ 64 -> 0 <= w < 2 ^ 64 -> canon2 (h_fma H double mode x b w) = ieee_fma double mode x b w).
  { intros x w Hx Hw. apply like_canon2; [apply (HH double mode x b w Hf Hm Hx Hb Hw) | apply fma_canonical; assumption]. }
  assert (G : forall w, 0 <= w < 2 ^ 64 -> is_nan double a = false -> is_nan double b = false -> is_nan double w = false ->
    (is_inf double a = false -> is_inf double b = false -> is_inf double w = false ->
     (mode = 0 \/ mode = 1) /\ units double a * units double b + units double w * 2 ^ quantum double <> 0) ->
    canon2 (neg double (fst (h_fma H double mode a b w)), snd (h_fma H double mode a b w)) = ieee_fma double mode (flip double a) b (flip double w)).
  { intros w Hw Na Nb Nw HS. rewrite fma_negated by assumption.
    apply like_negated; [apply (HH double mode a b w Hf Hm Ha Hb Hw) | apply fma_canonical; assumption]. }
  assert (CS : is_zero double c = true -> Z.shiftr c 63 = Z.b2z (sign double c) /\ Z.shiftr (wrap 64 (- c)) 63 = Z.b2z (sign double c) /\
             c = zero double (sign double c) /\ neg double c = zero double (negb (sign double c))).
  { intros Z0. pose proof (zero_pattern c Hc Z0) as E. set (s := sign double c) in *. clearbody s. subst c. destruct s; vm_compute; repeat split; reflexivity. }
  assert (ZS : forall p q : bool, (mode <> 2 \/ p = q) -> zero double (zero_sum_sign mode p q) = if Bool.eqb p q then zero double p else 0).
  { intros p q HQ. unfold zero_sum_sign. destruct (Bool.eqb p q) eqn:E; [reflexivity |].
    assert (mode <> 2) by (destruct HQ as [HQ | ->]; [exact HQ | rewrite Bool.eqb_reflx in E; discriminate E]).
    replace (mode =? 2) with false by (symmetry; apply Z.eqb_neq; assumption). reflexivity. }
  unfold op_fma_d. rewrite host_rm_id by exact Hm. cbv zeta.
  assert (SZ' : is_zero double c = true -> is_zero double a = true /\ is_inf double b = false \/ is_zero double b = true /\ is_inf double a = false ->
     (mode <> 2 \/ xorb np (xorb (sign double a) (sign double b)) = xorb na (sign double c)) /\
     (np = true -> na = false -> sign double c = false)).
  { intros Z0 P. apply SZ; [exact Z0 |]. destruct P as [[P _] | [P _]]; [left | right]; exact P. }
  clear SZ.
  destruct np, na.
  - apply (fma_d_core mode true true); try assumption.
    + intros _. apply neg_flip. exact Hok.
    + intros Z0 P. destruct (SZ' Z0 P) as [Q _]. destruct (CS Z0) as (C1 & C2 & C3 & C4). rewrite C1, C4.
      destruct (sign double a), (sign double b), (sign double c); cbn [xorb Z.b2z negb] in *; rewrite ZS by exact Q; reflexivity.
    + cbn [opt_flip]. rewrite neg_flip by exact Hok. apply M. exact Fa.
    + intros Na Nb Nc Z0 NI. apply G; try assumption. intros Ia Ib Ic.
      destruct (SN eq_refl Z0 (finite_of _ _ Na Ia) (finite_of _ _ Nb Ib) (finite_of _ _ Nc Ic)) as [Q1 Q2]. split; [exact Q1 |].
      cbn [opt_flip] in Q2. destruct (flip_facts double a Hok Ha) as (_ & _ & _ & _ & _ & _ & _ & _ & _ & Ua & _).
      destruct (flip_facts double c Hok Hc) as (_ & _ & _ & _ & _ & _ & _ & _ & _ & Uc & _). rewrite Ua, Uc in Q2.
      intros E. apply Q2. rewrite !Z.mul_opp_l, <- Z.opp_add_distr, E. reflexivity.
  - apply (fma_d_core mode true false); try assumption.
    + intros _. reflexivity.
    + intros Z0 P. destruct (SZ' Z0 P) as [Q Q']. destruct (CS Z0) as (C1 & C2 & C3 & C4). specialize (Q' eq_refl eq_refl). rewrite Q' in *.
      rewrite C2, C3. rewrite ZS by (destruct (sign double a), (sign double b); exact Q).
      destruct (sign double a), (sign double b); reflexivity.
    + cbn [opt_flip]. rewrite neg_flip by exact Hok. apply M. exact Fa.
    + intros Na Nb Nc Z0 NI. destruct (flip_facts double c Hok Hc) as (_ & _ & _ & _ & Nc' & _ & Ic' & _ & _ & Uc & FF).
      cbn [opt_flip]. rewrite neg_flip by exact Hok. rewrite <- FF at 3. apply G; try assumption; [rewrite Nc'; exact Nc |]. intros Ia Ib Ic. rewrite Ic' in Ic.
      destruct (SN eq_refl Z0 (finite_of _ _ Na Ia) (finite_of _ _ Nb Ib) (finite_of _ _ Nc Ic)) as [Q1 Q2]. split; [exact Q1 |].
      cbn [opt_flip] in Q2. destruct (flip_facts double a Hok Ha) as (_ & _ & _ & _ & _ & _ & _ & _ & _ & Ua & _). rewrite Ua in Q2. rewrite Uc.
      intros E. apply Q2. rewrite Z.mul_opp_l in *. apply Z.opp_inj. rewrite Z.opp_add_distr, Z.opp_involutive. exact E.
  - apply (fma_d_core mode false true); try assumption.
    + intros _. apply neg_flip. exact Hok.
    + intros Z0 P. destruct (SZ' Z0 P) as [Q _]. destruct (CS Z0) as (C1 & C2 & C3 & C4). rewrite C2, C4.
      destruct (sign double a), (sign double b), (sign double c); cbn [xorb Z.b2z negb] in *; rewrite ZS by exact Q; reflexivity.
    + cbn [opt_flip]. apply M. exact Ha.
    + intros Na Nb Nc Z0 NI. cbn [opt_flip]. rewrite neg_flip by exact Hok. apply F; assumption.
  - apply (fma_d_core mode false false); try assumption.
    + intros _. reflexivity.
    + intros Z0 P. destruct (SZ' Z0 P) as [Q _]. destruct (CS Z0) as (C1 & C2 & C3 & C4). set (sc := sign double c) in *. clearbody sc. rewrite C1, C3.
      destruct (sign double a), (sign double b), sc; cbn [xorb Z.b2z negb] in *; rewrite ZS by exact Q; reflexivity.
    + cbn [opt_flip]. apply M. exact Ha.
    + intros Na Nb Nc Z0 NI. cbn [opt_flip]. apply F; assumption.
Qed.

(** * Conversions *)

Lemma float_box_correct : forall dyn srcw argw canon op spec rm mode a x old f, sd f -> 0 <= rm < 2 ^ 32 -> resolve dyn rm = Some mode -> reg old ->
  boxed_source srcw argw canon [a; rm] 0 = Some x ->
  op mode x = spec -> number f (fst spec) \/ fst spec = canonical_nan f ->
  unary_float_nanbox dyn srcw (width f) argw canon f op [a; rm] old = Some (Wrote (box f (fst spec)) (snd spec)).
Proof.
  intros dyn srcw argw canon op spec rm mode a x old f Hf Hrm HR Ho S E N. pose proof (sd_formats f Hf) as Hin. pose proof (sd_ok f Hf) as Hok.
  unfold unary_float_nanbox. rewrite S. rewrite (rm_read [a; rm] 1 rm eq_refl Hrm). cbn [bind]. rewrite HR, E.
  pose proof (canonical_range f _ Hin N) as R. destruct spec as [v fl]. cbn [fst snd] in *.
  replace (IsNaN f v && SignBit f v) with false; [rewrite nanbox_sd by assumption; reflexivity |].
  symmetry. destruct N as [[_ N] | ->]; [rewrite IsNaN_eq by exact Hok; rewrite N; reflexivity |].
  destruct Hf as [-> | ->]; vm_compute; reflexivity.
Qed.

Lemma narrow_correct : forall H dyn rm mode a old, host_ok H -> 0 <= rm < 2 ^ 32 -> resolve dyn rm = Some mode -> 0 <= mode <= 3 ->
  reg a -> reg old -> is_snan double a = false ->
  unary_float_nanbox dyn 64 32 64 (kCanonicalNaN double) single (op_cvt_sd H) [a; rm] old =
  Some (Wrote (box single (fst (ieee_cvt double single mode a))) (snd (ieee_cvt double single mode a))).
Proof.
  intros H dyn rm mode a old HH Hrm HR Hm Ha Ho SN. change 32 with (width single) at 1.
  assert (Hf : sd double) by (right; reflexivity). assert (Hs : sd single) by (left; reflexivity).
  assert (E : op_cvt_sd H mode a = ieee_cvt double single mode a).
  { unfold op_cvt_sd. rewrite IsNaN_eq by exact (sd_ok _ Hf). rewrite host_rm_id by exact Hm. destruct (is_nan double a) eqn:N.
    - unfold ieee_cvt. rewrite N, SN. rewrite canonical_eq by exact in_single. reflexivity.
    - apply (like_number single); [apply (HH double mode a a a Hf Hm Ha Ha Ha); exact Hs |]. apply cvt_number; [exact (sd_ok _ Hf) | exact (sd_ok _ Hs) | exact N]. }
  apply (float_box_correct dyn 64 64 _ (op_cvt_sd H) _ rm mode a a); try assumption.
  - unfold boxed_source. change (64 <=? 64) with true. cbv iota. rewrite (get_at [a; rm] 0 64 a eq_refl). rewrite Z.mod_small by exact Ha. reflexivity.
  - unfold ieee_cvt at 1 2. destruct (is_nan double a) eqn:N; [right; reflexivity | left].
    pose proof (cvt_number double single mode a (sd_ok _ Hf) (sd_ok _ Hs) N) as C. unfold ieee_cvt in C. rewrite N in C. exact C.
Qed.

Lemma int_arg_wrap : forall sg w a, w = 32 \/ w = 64 -> int_arg sg w (wrap w a) = (if sg then sgn w a else wrap w a) /\
  - 2 ^ 63 <= int_arg sg w (wrap w a) < 2 ^ 64.
Proof.
  intros sg w a Hw. assert (E : int_arg sg w (wrap w a) = if sg then sgn w a else wrap w a).
  { unfold int_arg. destruct sg; [apply sgn_wrap; destruct Hw; lia | apply wrap_id; apply wrap_range; destruct Hw; lia]. }
  split; [exact E |]. rewrite E. destruct sg.
  - assert (R : - 2 ^ (w - 1) <= sgn w a < 2 ^ (w - 1)) by (apply sgn_range; destruct Hw; lia).
    destruct Hw as [-> | ->]; change (32 - 1) with 31 in R || change (64 - 1) with 63 in R; lia.
  - assert (R : 0 <= wrap w a < 2 ^ w) by (apply wrap_range; destruct Hw; lia). destruct Hw as [-> | ->]; lia.
Qed.

Lemma of_int_s : forall H dyn (sg : bool) w rm mode a old, host_ok H -> w = 32 \/ w = 64 -> 0 <= rm < 2 ^ 32 -> resolve dyn rm = Some mode -> 0 <= mode <= 3 -> reg old ->
  let r := ieee_of_int single mode (if sg then sgn w a else wrap w a) in
  unary_float_nanbox dyn w 32 w 0 single (fun rm x => h_int H single (host_rm rm) (int_arg sg w x)) [a; rm] old = Some (Wrote (box single (fst r)) (snd r)).
Proof.
  intros H dyn sg w rm mode a old HH Hw Hrm HR Hm Ho. cbv zeta. change 32 with (width single) at 1.
  assert (Hs : sd single) by (left; reflexivity). destruct (int_arg_wrap sg w a Hw) as [E R].
  apply (float_box_correct dyn w w 0 _ _ rm mode a (wrap w a)); try assumption.
  - unfold boxed_source. rewrite Z.leb_refl. unfold get. reflexivity.
  - cbv beta. rewrite host_rm_id by exact Hm. rewrite <- E. apply (like_number single).
    + apply (HH single mode 0 0 0 Hs Hm); try (split; [lia | reflexivity]). exact R.
    + apply int_number. exact (sd_ok _ Hs).
  - left. apply int_number. exact (sd_ok _ Hs).
Qed.

Lemma of_int_d : forall H dyn (sg : bool) w rm mode a old, host_ok H -> w = 32 \/ w = 64 -> 0 <= rm < 2 ^ 32 -> resolve dyn rm = Some mode -> 0 <= mode <= 3 -> reg old ->
  let r := ieee_of_int double mode (if sg then sgn w a else wrap w a) in
  unary_float_op dyn 64 w (fun rm x => h_int H double (host_rm rm) (int_arg sg w x)) [a; rm] old = Some (Wrote (box double (fst r)) (snd r)).
Proof.
  intros H dyn sg w rm mode a old HH Hw Hrm HR Hm Ho. cbv zeta.
  assert (Hs : sd double) by (right; reflexivity). destruct (int_arg_wrap sg w a Hw) as [E R].
  unfold unary_float_op. unfold get at 1. cbn [nth_error option_map bind]. rewrite (rm_read [a; rm] 1 rm eq_refl Hrm). cbn [bind]. rewrite HR.
  rewrite host_rm_id by exact Hm. rewrite <- E.
  assert (NB : number double (fst (ieee_of_int double mode (int_arg sg w (wrap w a))))) by (apply int_number; exact (sd_ok _ Hs)).
  assert (L : h_int H double mode (int_arg sg w (wrap w a)) = ieee_of_int double mode (int_arg sg w (wrap w a))).
  { apply (like_number double); [| exact NB]. apply (HH double mode 0 0 0 Hs Hm); try (split; [lia | reflexivity]). exact R. }
  rewrite L. destruct (ieee_of_int _ _ _) as [v fl]. cbn [fst snd] in *. destruct NB as [NB _].
  rewrite set_low_all by (try exact Ho; lia). rewrite box_double. unfold wrap. rewrite Z.mod_small by exact NB. reflexivity.
Qed.
