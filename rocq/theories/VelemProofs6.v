(** Fixed-point results in uniform form; immediates. *)
From Coq Require Import ZArith Bool List Lia.
From Verif Require Import Bits Memory VelemSpec VcfgModel VelemModel VelemProofs1 VelemProofs2 VelemProofs3 VelemProofs4 VelemProofs5.
Import ListNotations.
Local Open Scope Z_scope.

Lemma roundoff0 rm v : 0 <= rm < 4 -> roundoff rm v 0 = v.
Proof.
  intros H. unfold roundoff. rewrite Z.pow_0_r, Z.div_1_r, Z.mod_1_r. cbv zeta.
  assert (rm = 0 \/ rm = 1 \/ rm = 2 \/ rm = 3) as [-> |[-> |[-> | ->]]] by lia; cbn [Z.eqb Pos.eqb negb andb orb Z.leb Z.ltb Z.mul]; reflexivity.
Qed.

Lemma roundoff1 rm v : v / 2 <= roundoff rm v 1 <= (v + 1) / 2.
Proof.
  unfold roundoff. change (2 ^ 1) with 2. cbv zeta.
  pose proof (Z.mod_pos_bound v 2 ltac:(lia)). pose proof (Z.div_mod v 2 ltac:(lia)).
  set (q := v / 2) in *. set (r := v mod 2) in *.
  assert (r = 0 /\ (v + 1) / 2 = q \/ r = 1 /\ (v + 1) / 2 = q + 1) as [(E & ->)|(E & ->)] by lia;
    rewrite E; destruct (rm =? 0), (rm =? 1), (rm =? 2), (Z.odd q), (Z.even q); cbn; lia.
Qed.

Definition fx_fin (sg : bool) (b v : Z) : Z * bool :=
  let (lo, hi) := if sg then (- 2 ^ (b - 1), 2 ^ (b - 1) - 1) else (0, 2 ^ b - 1) in
  if v <? lo then (wrap b lo, true) else if hi <? v then (wrap b hi, true) else (wrap b v, false).
Lemma fx_fin_u b v : 1 <= b -> clampu b v = fx_fin false b v.
Proof.
  intros Hb. unfold clampu, clamp, fx_fin. pose proof (pow2_pos b ltac:(lia)).
  destruct (Z.ltb_spec v 0); [rewrite wrap_id by (unfold inw; lia); reflexivity|].
  destruct (Z.ltb_spec (2 ^ b - 1) v); rewrite wrap_id by (unfold inw; lia); reflexivity.
Qed.
Lemma fx_fin_s b v : clamps b v = fx_fin true b v.
Proof.
  unfold clamps, clamp, fx_fin.
  destruct (Z.ltb_spec v (- 2 ^ (b - 1))); [reflexivity|].
  destruct (Z.ltb_spec (2 ^ (b - 1) - 1) v); reflexivity.
Qed.
Lemma fx_fin_in (sg : bool) b v : (if sg then - 2 ^ (b - 1) <= v < 2 ^ (b - 1) else inw b v) -> fx_fin sg b v = (wrap b v, false).
Proof.
  unfold fx_fin, inw. destruct sg; intros H.
  - destruct (Z.ltb_spec v (- 2 ^ (b - 1))); [lia|]. destruct (Z.ltb_spec (2 ^ (b - 1) - 1) v); [lia|reflexivity].
  - destruct (Z.ltb_spec v 0); [lia|]. destruct (Z.ltb_spec (2 ^ b - 1) v); [lia|reflexivity].
Qed.

Lemma fx_of_vrel o b rm m x y z r s : In o fixed_ops -> wb b -> 0 <= rm < 4 -> inw (w2_of o b) x -> inw b y ->
  vrel o b rm m x y z r s -> (r, s) = fx_result o b rm x y.
Proof.
  intros Ho Hb Hrm Hx Hy. assert (8 <= b) as H8 by (red in Hb; lia).
  assert (fx_result o b rm x y = if fx_wraps o then (wrap b (roundoff rm (fx_num o b x y) (fx_shift o b y)), false)
            else fx_fin (fx_signed o) b (roundoff rm (fx_num o b x y) (fx_shift o b y))) as ->
    by (unfold fx_result, fx_fin; destruct (fx_signed o); reflexivity).
  assert (w2_of o b = b \/ o = Vnclipu \/ o = Vnclip) as HW.
  { clear - Ho Hb. unfold w2_of. destruct o; cbn in Ho; cbn [widths]; auto;
      try (left; destruct Hb as [-> |[-> |[-> | ->]]]; reflexivity); exfalso; intuition discriminate. }
  pose proof (sgn_range b x ltac:(lia)) as Sx. pose proof (sgn_range b y ltac:(lia)) as Sy.
  assert (2 ^ b = 2 * 2 ^ (b - 1)) as P2 by (rewrite <- Z.pow_succ_r by lia; f_equal; lia).
  assert (0 <= y mod b < b) as Ym by (apply Z.mod_pos_bound; lia).
  destruct o; try (exfalso; clear - Ho; cbn in Ho; intuition discriminate);
    cbn [vrel fx_num fx_shift fx_signed fx_wraps]; rewrite ?roundoff0 by assumption;
    rewrite ?fx_fin_u by lia; rewrite ?fx_fin_s; try (intros H; exact H).
  all: try (destruct HW as [HW|[HW|HW]]; try discriminate HW; rewrite HW in Hx).
  - intros (-> & ->). rewrite fx_fin_in; [|apply roundoff_rangeu; [lia|lia|exact Hx]].
    rewrite wrap_id; [reflexivity|]. apply roundoff_rangeu; [lia|lia|exact Hx].
  - intros (-> & ->). rewrite fx_fin_in; [reflexivity|]. apply roundoff_range; lia.
  - intros (-> & ->). rewrite fx_fin_in; [reflexivity|]. unfold inw in *. pose proof (roundoff1 rm (x + y)). lia.
  - intros (-> & ->). rewrite fx_fin_in; [reflexivity|]. pose proof (roundoff1 rm (sgn b x + sgn b y)). lia.
  - intros (-> & ->). reflexivity.
  - intros (-> & ->). reflexivity.
Qed.

(** A shift amount only matters modulo the element width. *)
Lemma vrel_shift o b rm m x y y' z r s : In o [Vsll; Vsrl; Vsra] -> y mod b = y' mod b ->
  vrel o b rm m x y z r s -> vrel o b rm m x y' z r s.
Proof.
  intros [<-|[<-|[<-|[]]]] E; cbn [vrel]; rewrite E; exact (fun h => h).
Qed.

Lemma imm_mod w raw : In w [1; 2; 4] -> wrap (8 * w) (sgn 5 raw) mod (8 * w) = wrap (8 * w) (wrap 5 raw) mod (8 * w).
Proof.
  intros Hw. unfold sgn. set (a := wrap 5 raw). destruct (a <? 2 ^ (5 - 1)); [reflexivity|].
  change (2 ^ 5) with 32. unfold wrap.
  assert (exists k, 32 = k * (8 * w) /\ exists q, 2 ^ (8 * w) = q * (8 * w) /\ 0 < w) as (k & Hk & q & Hq & Hw0).
  { destruct Hw as [<-|[<-|[<-|[]]]]; [exists 4|exists 2|exists 1]; (split; [reflexivity|]);
      [exists 32|exists 4096|exists 134217728]; split; try reflexivity. }
  assert (forall z, (z mod 2 ^ (8 * w)) mod (8 * w) = z mod (8 * w)) as M.
  { intros z. rewrite (Z.mod_eq z (2 ^ (8 * w))) by (rewrite Hq; destruct Hw as [<-|[<-|[<-|[]]]]; lia).
    replace (z - 2 ^ (8 * w) * (z / 2 ^ (8 * w))) with (z + - (q * (z / 2 ^ (8 * w))) * (8 * w)) by (rewrite Hq at 2; ring).
    apply Z.mod_add. lia. }
  rewrite !M. replace (a - 32) with (a + (- k) * (8 * w)) by lia. apply Z.mod_add. lia.
Qed.

Lemma imm_elementwise vb sew lmul8 vl rm o vd vs2 raw vm start rf rf' s s' : has_vi o = true ->
  config vb sew lmul8 vl -> (In o [Vsll; Vsrl; Vsra] -> sew < 8) ->
  elementwise vb sew rm start vl {| vi_op := o; vi_vd := vd; vi_vs2 := vs2;
    vi_src1 := Scalar (match imm_operand o raw with Some x => x | None => 0 end); vi_vm := vm |} rf rf' s s' ->
  elementwise vb sew rm start vl {| vi_op := o; vi_vd := vd; vi_vs2 := vs2;
    vi_src1 := Scalar (imm_spec o raw); vi_vm := vm |} rf rf' s s'.
Proof.
  intros Hv (_ & Hs & _) Hsh.
  assert (In o [Vsll; Vsrl; Vsra] \/ match imm_operand o raw with Some x => x | None => 0 end = imm_spec o raw) as [Ho|E].
  { destruct o; try discriminate Hv; (right; reflexivity) || (left; cbn; tauto). }
  2: { rewrite E. exact (fun h => h). }
  assert (match imm_operand o raw with Some x => x | None => 0 end = sgn 5 raw /\ imm_spec o raw = wrap 5 raw) as (-> & ->).
  { destruct Ho as [<-|[<-|[<-|[]]]]; split; reflexivity. }
  assert (In sew [1; 2; 4]) as Hs'.
  { specialize (Hsh Ho). destruct Hs as [<-|[<-|[<-|[<-|[]]]]]; cbn; auto; lia. }
  assert (widths o sew = (sew, sew, sew)) as EW by (destruct Ho as [<-|[<-|[<-|[]]]]; reflexivity).
  unfold elementwise. cbn [vi_op vi_vd vi_vs2 vi_src1]. rewrite EW.
  intros (sat & H1 & H2 & H3). exists sat. split; [|split; [exact H2|exact H3]].
  intros j Hj. specialize (H1 j Hj). cbn [src1_elem] in *.
  refine (vrel_shift _ _ _ _ _ _ _ _ _ _ Ho _ H1). apply imm_mod. exact Hs'.
Qed.
