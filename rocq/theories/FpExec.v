(** Proofs about whole floating-point instructions. *)
From Coq Require Import ZArith Bool List Lia.
From Verif Require Import Bits IeeeSpec FpSpec IntModel FpModel FpProofs FpHalf FpCvt FpWiden.
Import ListNotations.
Local Open Scope Z_scope.

Lemma in_half : In half formats. Proof. left. reflexivity. Qed.
Lemma in_single : In single formats. Proof. right. left. reflexivity. Qed.
Lemma in_double : In double formats. Proof. right. right. left. reflexivity. Qed.

Lemma nv_flag : forall b, flag b = nv b. Proof. reflexivity. Qed.

Lemma set_low_bit : forall xl old b, xl = 32 \/ xl = 64 -> 0 <= old < 2 ^ xl -> set_low xl old (Z.b2z b) = Z.b2z b.
Proof.
  intros xl old b Hx Ho. rewrite set_low_all by (try exact Ho; lia).
  destruct Hx as [-> | ->]; destruct b; reflexivity.
Qed.

Lemma read_low : forall f s i r, In f formats -> nth_error s i = Some r -> boxed f r = true ->
  get s i (width f) = Some (unbox f r).
Proof. intros f s i r Hf Hn B. rewrite (get_at s i _ r Hn). unfold unbox. rewrite B. reflexivity. Qed.

Lemma read_double : forall s i r, nth_error s i = Some r -> reg r -> get s i 64 = Some (unbox double r).
Proof. intros s i r Hn Hr. rewrite (get_at s i _ r Hn), unbox_double by exact Hr. rewrite Z.mod_small by exact Hr. reflexivity. Qed.

(** * Min, max, sign injection *)

Lemma min_s : forall a b old, reg a -> reg b ->
  binary_nanbox 64 32 32 (kCanonicalNaN single) (op_min single) [a; b] old =
  Some (Wrote (box single (min_max single true (unbox single a) (unbox single b))) (nv (either_snan single (unbox single a) (unbox single b)))).
Proof.
  intros a b old Ha Hb. unfold binary_nanbox.
  rewrite canonical_eq by exact in_single. change 32 with (width single).
  rewrite (source_read single _ [a; b] 0 a), (source_read single _ [a; b] 1 b) by (try exact in_single; try reflexivity; try assumption; left; reflexivity).
  cbn [bind]. rewrite min_correct by (try exact in_single; apply unbox_range, in_single). change (width single) with 32.
  rewrite nanbox_single; [reflexivity |]. apply (min_max_range single); [exact in_single | |]; apply unbox_range, in_single.
Qed.

Lemma max_s : forall a b old, reg a -> reg b ->
  binary_nanbox 64 32 32 (kCanonicalNaN single) (op_max_s single) [a; b] old =
  Some (Wrote (box single (min_max single false (unbox single a) (unbox single b))) (nv (either_snan single (unbox single a) (unbox single b)))).
Proof.
  intros a b old Ha Hb. unfold binary_nanbox.
  rewrite canonical_eq by exact in_single. change 32 with (width single).
  rewrite (source_read single _ [a; b] 0 a), (source_read single _ [a; b] 1 b) by (try exact in_single; try reflexivity; try assumption; left; reflexivity).
  cbn [bind]. rewrite max_s_correct by (try exact in_single; apply unbox_range, in_single). change (width single) with 32.
  rewrite nanbox_single; [reflexivity |]. apply (min_max_range single); [exact in_single | |]; apply unbox_range, in_single.
Qed.

Lemma sgnj_s : forall canon k a b old, reg a -> reg b ->
  canon = canonical_nan single \/ boxed single a = true /\ boxed single b = true ->
  binary_nanbox 64 32 32 canon (fun a b => (op_sgnj single k a b, 0)) [a; b] old =
  Some (Wrote (box single (inject single k (unbox single a) (unbox single b))) 0).
Proof.
  intros canon k a b old Ha Hb HC. unfold binary_nanbox. change 32 with (width single).
  rewrite (source_read single _ [a; b] 0 a), (source_read single _ [a; b] 1 b)
    by (try exact in_single; try reflexivity; try assumption; (destruct HC as [-> | [B1 B2]]; [left; reflexivity | right; assumption])).
  cbn [bind]. rewrite sgnj_correct by (try apply formats_ok; try apply unbox_range; exact in_single). change (width single) with 32.
  rewrite nanbox_single; [reflexivity |]. apply (inject_range single). apply formats_ok. exact in_single.
Qed.

Lemma double_op : forall op v fl a b old, reg a -> reg b -> reg old -> op (unbox double a) (unbox double b) = (v, fl) -> 0 <= v < 2 ^ 64 ->
  binary_op 64 64 op [a; b] old = Some (Wrote (box double v) fl).
Proof.
  intros op v fl a b old Ha Hb Ho E Hv. unfold binary_op.
  rewrite (read_double [a; b] 0 a), (read_double [a; b] 1 b) by (try reflexivity; assumption). cbn [bind]. rewrite E.
  rewrite set_low_all by (try exact Ho; lia). rewrite box_double. unfold wrap. rewrite Z.mod_small by exact Hv. reflexivity.
Qed.

(** * Comparisons *)

Definition cmp (rel : Z -> Z -> bool) (f : fmt) (a b : Z) : bool := negb (either_nan f a b) && rel (units f a) (units f b).

Lemma host_cmp : forall f a b,
  host_eq f a b = cmp Z.eqb f a b /\ host_lt f a b = cmp Z.ltb f a b /\ host_le f a b = cmp Z.leb f a b.
Proof. intros f a b. unfold host_eq, host_lt, host_le, cmp, either_nan. rewrite negb_orb. repeat split. Qed.

Lemma cmp_s : forall op rel fl xl a b old, xl = 32 /\ boxed single a = true /\ boxed single b = true \/ xl = 64 -> reg a -> reg b -> 0 <= old < 2 ^ xl ->
  (forall a b, op a b = (Z.b2z (cmp rel single a b), fl a b)) ->
  binary_nanbox xl xl 32 (kCanonicalNaN single) op [a; b] old =
  Some (Wrote (Z.b2z (cmp rel single (unbox single a) (unbox single b))) (fl (unbox single a) (unbox single b))).
Proof.
  intros op rel fl xl a b old Hx Ha Hb Ho HO. unfold binary_nanbox, nanbox. rewrite Z.ltb_irrefl. rewrite canonical_eq by exact in_single.
  assert (R : boxed_source xl 32 (canonical_nan single) [a; b] 0 = Some (unbox single a) /\ boxed_source xl 32 (canonical_nan single) [a; b] 1 = Some (unbox single b)).
  { destruct Hx as [(-> & B1 & B2) | ->].
    - unfold boxed_source. change (32 <=? 32) with true. cbv iota. split; apply (read_low single); try exact in_single; try reflexivity; assumption.
    - split; apply (source_read single); try exact in_single; try reflexivity; try assumption; left; reflexivity. }
  destruct R as [-> ->]. cbn [bind]. rewrite HO, set_low_bit; [reflexivity | | exact Ho]. destruct Hx as [[-> _] | ->]; [left | right]; reflexivity.
Qed.

Lemma cmp_d : forall op rel fl xl a b old, xl = 32 \/ xl = 64 -> reg a -> reg b -> 0 <= old < 2 ^ xl ->
  (forall a b, op a b = (Z.b2z (cmp rel double a b), fl a b)) ->
  binary_op xl 64 op [a; b] old =
  Some (Wrote (Z.b2z (cmp rel double (unbox double a) (unbox double b))) (fl (unbox double a) (unbox double b))).
Proof.
  intros op rel fl xl a b old Hx Ha Hb Ho HO. unfold binary_op.
  rewrite (read_double [a; b] 0 a), (read_double [a; b] 1 b) by (try reflexivity; assumption). cbn [bind].
  rewrite HO, set_low_bit by assumption. reflexivity.
Qed.

Definition widens (a r : Z) : Prop :=
  is_nan single r = is_nan half a /\
  (is_nan half a = false ->
   (units half a = 2 ^ 40 /\ units single r = 2 ^ 277) \/ (units half a = - 2 ^ 40 /\ units single r = - 2 ^ 277) \/
   (Z.abs (units half a) < 2 ^ 40 /\ units single r = units half a * 2 ^ 125)).

Lemma widens_of : forall a r fl, 0 <= a < 65536 -> widened half single a r fl -> widens a r.
Proof.
  intros a r fl Ha W. unfold widened in W. destruct W as (_ & Hr & W). unfold widens.
  destruct (is_nan half a) eqn:N; [subst r; split; [reflexivity | discriminate] |].
  destruct W as (S & I & NN & U). split; [exact NN |]. intros _.
  destruct (is_inf half a) eqn:INF.
  - destruct (inf_patterns half a in_half Ha) as [P1 P2]. destruct (inf_patterns single r in_single Hr) as [Q1 Q2].
    rewrite INF in P1, P2. rewrite I, S in Q1, Q2.
    destruct (sign half a); cbn [negb andb] in *.
    + apply Z.eqb_eq in P2, Q2. subst a r. right. left. split; reflexivity.
    + apply Z.eqb_eq in P1, Q1. subst a r. left. split; reflexivity.
  - right. right. specialize (U eq_refl). change (quantum single - quantum half) with 125 in U. split; [| exact U].
    assert (Ok : okf half) by (apply formats_ok; exact in_half).
    rewrite units_signed. pose proof (sig_of_range half a Ok) as SR. change (2 ^ (sw half + 1)) with 2048 in SR.
    pose proof (exp_of_nonneg half a Ok) as XN.
    assert (XB : exp_of half a <= 29).
    { unfold exp_of. pose proof (Z.mod_pos_bound (a / 2 ^ sw half) (2 ^ ew half) eq_refl) as B. fold (expo half a) in B. change (2 ^ ew half) with 32 in B.
      assert (expo half a <> 31).
      { intro E. unfold is_nan, is_inf, special in *. change (2 ^ ew half - 1) with 31 in *. rewrite E in *. cbn [andb Z.eqb Pos.eqb] in *.
        destruct (frac half a =? 0); discriminate. }
      destruct (expo half a =? 0); lia. }
    assert (2 ^ exp_of half a <= 2 ^ 29) by (apply Z.pow_le_mono_r; lia).
    assert (0 < 2 ^ exp_of half a) by (apply pow2_pos; lia).
    unfold signed. assert (0 <= sig_of half a * 2 ^ exp_of half a < 2 ^ 40) by nia. destruct (sign half a); lia.
Qed.

Lemma widens_cmp : forall rel a b r t, rel = Z.eqb \/ rel = Z.ltb \/ rel = Z.leb -> widens a r -> widens b t ->
  cmp rel single r t = cmp rel half a b /\ either_nan single r t = either_nan half a b.
Proof.
  intros rel a b r t HR [NA UA] [NB UB]. unfold cmp, either_nan. rewrite NA, NB. split; [| reflexivity].
  destruct (is_nan half a); [reflexivity |]. destruct (is_nan half b); [reflexivity |]. cbn [orb negb andb].
  specialize (UA eq_refl). specialize (UB eq_refl). clear NA NB.
  generalize dependent (units half a). generalize dependent (units half b).
  generalize dependent (units single r). generalize dependent (units single t). intros T R B TB A RA.
  change (2 ^ 40) with 1099511627776 in *. change (2 ^ 277) with (2 ^ 152 * 2 ^ 125) in *.
  assert (P : 0 < 2 ^ 125) by reflexivity.
  assert (Q : 1099511627776 < 2 ^ 152) by reflexivity. set (p := 2 ^ 125) in *. set (q := 2 ^ 152) in *. clearbody p q.
  assert (C : forall x y, (x * p =? y * p) = (x =? y) /\ (x * p <? y * p) = (x <? y) /\ (x * p <=? y * p) = (x <=? y)).
  { intros x y. split; [| split].
    - destruct (Z.eqb_spec x y) as [-> | N]; [apply Z.eqb_refl |]. apply Z.eqb_neq. intro E. apply Z.mul_cancel_r in E; lia.
    - destruct (Z.ltb_spec x y); [apply Z.ltb_lt | apply Z.ltb_ge]; nia.
    - destruct (Z.leb_spec x y); [apply Z.leb_le | apply Z.leb_gt]; nia. }
  assert (K : exists x y, R = x * p /\ T = y * p /\ (x =? y) = (A =? B) /\ (x <? y) = (A <? B) /\ (x <=? y) = (A <=? B)).
  { destruct TB as [(-> & ->) | [(-> & ->) | (TB & ->)]], RA as [(-> & ->) | [(-> & ->) | (RA & ->)]];
      [exists q, q | exists (- q), q | exists A, q | exists q, (- q) | exists (- q), (- q) | exists A, (- q) | exists q, B | exists (- q), B | exists A, B];
      (split; [try reflexivity; ring |]); (split; [try reflexivity; ring |]); clear C; split; [| split | | split | | split | | split | | split | | split | | split | | split | | split];
      try reflexivity; lia. }
  destruct K as (x & y & -> & -> & K1 & K2 & K3). destruct (C x y) as (C1 & C2 & C3).
  destruct HR as [-> | [-> | ->]]; [rewrite C1, K1 | rewrite C2, K2 | rewrite C3, K3]; reflexivity.
Qed.

Lemma half_sources : forall a b, reg a -> reg b ->
  boxed_source 64 (width half) (kCanonicalNaN half) [a; b] 0 = Some (unbox half a) /\
  boxed_source 64 (width half) (kCanonicalNaN half) [a; b] 1 = Some (unbox half b).
Proof.
  intros a b Ha Hb. rewrite canonical_eq by exact in_half.
  split; apply source_read; try exact in_half; try reflexivity; try assumption; left; reflexivity.
Qed.

Lemma half_widens : forall a, 0 <= a < 65536 -> exists r fl, from_half single a = (r, fl) /\ widens a r /\ fl = nv (is_snan half a).
Proof.
  intros a Ha. destruct (from_half single a) as [r fl] eqn:E. exists r, fl. split; [reflexivity |].
  pose proof (widen_correct single a (or_introl eq_refl) Ha) as W. rewrite E in W. cbn [fst snd] in W.
  split; [exact (widens_of a r fl Ha W) | exact (proj1 W)].
Qed.

Lemma eq_h : forall xl a b old, xl = 32 \/ xl = 64 -> reg a -> reg b -> 0 <= old < 2 ^ xl ->
  zfh_eq xl [a; b] old = Some (Wrote (Z.b2z (cmp Z.eqb half (unbox half a) (unbox half b))) (nv (either_snan half (unbox half a) (unbox half b)))).
Proof.
  intros xl a b old Hx Ha Hb Ho. unfold zfh_eq. destruct (half_sources a b Ha Hb) as [-> ->]. cbn [bind].
  destruct (half_widens (unbox half a) (unbox_range half a in_half)) as (r & f1 & -> & W1 & ->).
  destruct (half_widens (unbox half b) (unbox_range half b in_half)) as (t & f2 & -> & W2 & ->).
  rewrite (proj1 (host_cmp _ _ _)).
  rewrite (proj1 (widens_cmp Z.eqb _ _ r t (or_introl eq_refl) W1 W2)), set_low_bit by assumption.
  unfold either_snan, nv. destruct (is_snan half (unbox half a)), (is_snan half (unbox half b)); reflexivity.
Qed.

Lemma rel_h : forall hrel rel xl a b old, hrel = host_lt /\ rel = Z.ltb \/ hrel = host_le /\ rel = Z.leb ->
  xl = 32 \/ xl = 64 -> reg a -> reg b -> 0 <= old < 2 ^ xl ->
  zfh_rel hrel xl [a; b] old = Some (Wrote (Z.b2z (cmp rel half (unbox half a) (unbox half b))) (nv (either_nan half (unbox half a) (unbox half b)))).
Proof.
  intros hrel rel xl a b old HR Hx Ha Hb Ho. unfold zfh_rel. destruct (half_sources a b Ha Hb) as [-> ->]. cbn [bind].
  destruct (half_widens (unbox half a) (unbox_range half a in_half)) as (r & f1 & -> & W1 & _).
  destruct (half_widens (unbox half b) (unbox_range half b in_half)) as (t & f2 & -> & W2 & _).
  fold (either_nan single r t).
  assert (E : hrel single r t = cmp rel single r t) by (destruct HR as [[-> ->] | [-> ->]]; apply host_cmp).
  assert (RR : rel = Z.eqb \/ rel = Z.ltb \/ rel = Z.leb) by (destruct HR as [[_ ->] | [_ ->]]; auto).
  destruct (widens_cmp rel _ _ r t RR W1 W2) as [C1 C2].
  rewrite E, C1, C2, set_low_bit by assumption. reflexivity.
Qed.

(** * Widening *)

Lemma widen_h : forall dyn g rm mode a old, g = single \/ g = double -> 0 <= rm < 2 ^ 32 -> resolve dyn rm = Some mode -> reg a -> reg old ->
  exists r fl, zfh_widen dyn g [a; rm] old = Some (Wrote (box g r) fl) /\ widened half g (unbox half a) r fl.
Proof.
  intros dyn g rm mode a old Hg Hrm HR Ha Ho. unfold zfh_widen.
  rewrite canonical_eq by exact in_half. rewrite (source_read half _ [a; rm] 0 a) by (try exact in_half; try reflexivity; try assumption; left; reflexivity).
  cbn [bind]. rewrite (get_at [a; rm] 1 32 rm eq_refl). cbn [bind]. rewrite Z.mod_small by exact Hrm. rewrite HR.
  pose proof (widen_correct g (unbox half a) Hg (unbox_range half a in_half)) as W.
  destruct (from_half g (unbox half a)) as [r fl] eqn:E. cbn [fst snd] in W. exists r, fl. split; [| exact W].
  destruct W as (F & R & _). rewrite nanbox_z_box by (try assumption; (destruct Hg as [-> | ->]; [exact in_single | exact in_double])).
  f_equal. f_equal. subst fl. rewrite IsSNaN_eq by (try (apply formats_ok; exact in_half); apply unbox_range; exact in_half).
  destruct (is_snan half (unbox half a)); reflexivity.
Qed.

Lemma widen_s : forall dyn rm mode a old, 0 <= rm < 2 ^ 32 -> resolve dyn rm = Some mode -> boxed single a = true -> reg old ->
  is_snan single (unbox single a) = false ->
  exists r fl, unary_float_op dyn 64 32 op_cvt_ds [a; rm] old = Some (Wrote (box double r) fl) /\ widened single double (unbox single a) r fl.
Proof.
  intros dyn rm mode a old Hrm HR B Ho SN. unfold unary_float_op.
  change (get [a; rm] 0 32) with (get [a; rm] 0 (width single)).
  rewrite (read_low single [a; rm] 0 a in_single eq_refl B). cbn [bind].
  rewrite (get_at [a; rm] 1 32 rm eq_refl). cbn [bind]. rewrite Z.mod_small by exact Hrm. rewrite HR.
  pose proof (unbox_range single a in_single) as UR. change (2 ^ width single) with (2 ^ 32) in UR. set (x := unbox single a) in *. clearbody x.
  unfold op_cvt_ds. rewrite IsNaN_eq by (try (apply formats_ok; exact in_single); lia).
  destruct (is_nan single x) eqn:N.
  - exists (canonical_nan double), 0. rewrite canonical_eq by exact in_double. rewrite set_low_all by (try exact Ho; lia).
    rewrite box_double. split; [reflexivity |]. unfold widened. rewrite SN, N. split; [reflexivity |]. split; [split; vm_compute; congruence | reflexivity].
  - pose proof (single_double mode x UR N) as W. destruct (ieee_cvt single double mode x) as [r fl]. cbn [fst snd] in W.
    exists r, fl. split; [| exact W]. rewrite set_low_all by (try exact Ho; lia). rewrite box_double. unfold wrap.
    rewrite Z.mod_small by exact (proj1 (proj2 W)). reflexivity.
Qed.

(** * Conversion to integers *)

Lemma cvt_exec : forall m dyn f sg w rm mode xl a old, In f formats -> w = 32 \/ w = 64 -> xl = 32 \/ xl = 64 ->
  0 <= rm < 2 ^ 32 -> resolve dyn rm = Some mode -> 0 <= mode <= 4 -> boxed f a = true -> 0 <= old < 2 ^ xl ->
  m = Wrapv \/ no_overflow f sg w mode (unbox f a) ->
  exists d fl v fl', cvt_int m dyn f sg w xl [a; rm] old = Some (Wrote d fl) /\
    to_int f sg w mode (unbox f a) v fl' /\ d = x_result xl w v /\
    (fl = fl' \/ mode = 4 /\ is_finite f (unbox f a) = true /\ tie (units f (unbox f a)) (2 ^ quantum f) /\ fl = 0 /\ fl' = fNX).
Proof.
  intros m dyn f sg w rm mode xl a old Hf Hw Hx Hrm HR Hm B Ho HM. unfold cvt_int.
  rewrite (read_low f [a; rm] 0 a Hf eq_refl B). cbn [bind].
  rewrite (get_at [a; rm] 1 32 rm eq_refl). cbn [bind]. rewrite Z.mod_small by exact Hrm. rewrite HR.
  destruct (convert_correct m f sg w mode (unbox f a) Hf Hw Hm (unbox_range f a Hf) HM) as (v & fl & fl' & E & T & F).
  rewrite E. cbn [bind]. exists (set_low xl old (sgn w v)), fl, v, fl'.
  split; [reflexivity |]. split; [exact T |]. split; [| exact F]. apply set_low_all; [lia | exact Ho].
Qed.

(** * Classification, moves and loads *)

Lemma class_small : forall f x, 0 <= class_bit f x <= 9.
Proof.
  intros f x. unfold class_bit. repeat match goal with |- context [if ?c then _ else _] => destruct c end; lia.
Qed.

Lemma class_exec : forall f resw a old, In f formats -> resw = 32 \/ resw = 64 -> boxed f a = true -> 0 <= old < 2 ^ resw ->
  unary_op resw (width f) (ClassifyFP f) [a] old = Some (Wrote (2 ^ class_bit f (unbox f a)) 0).
Proof.
  intros f resw a old Hf Hr B Ho. unfold unary_op. rewrite (read_low f [a] 0 a Hf eq_refl B). cbn [bind].
  rewrite class_correct by (try (apply formats_ok; exact Hf); apply unbox_range; exact Hf).
  rewrite set_low_all by (try exact Ho; lia). f_equal. f_equal. unfold wrap. apply Z.mod_small.
  pose proof (class_small f (unbox f a)) as [C1 C2]. split; [apply Z.pow_nonneg; lia |].
  apply Z.pow_lt_mono_r; lia.
Qed.
