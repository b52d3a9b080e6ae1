(** Mask buffers bit by bit; the mask-writing loops. *)
From Coq Require Import ZArith Bool List Lia.
From Verif Require Import Bits Memory VelemSpec VmaskSpec VcfgModel VelemModel VelemProofs3 VelemProofs4 VmaskModel.
Import ListNotations.
Local Open Scope Z_scope.

Definition bbit (buf : mem) (i : Z) : bool := Z.testbit (buf (i / 8)) (i mod 8).

Lemma byte_ix i : Z.shiftr i 3 = i / 8.
Proof. rewrite Z.shiftr_div_pow2 by lia. reflexivity. Qed.
Lemma bit_ix i : Z.land i 7 = i mod 8.
Proof. change 7 with (Z.ones 3). rewrite Z.land_ones by lia. reflexivity. Qed.
Lemma same_bit i j : (i =? j) = ((i / 8 =? j / 8) && (i mod 8 =? j mod 8)).
Proof.
  pose proof (Z.div_mod i 8 ltac:(lia)). pose proof (Z.div_mod j 8 ltac:(lia)).
  destruct (Z.eqb_spec i j), (Z.eqb_spec (i / 8) (j / 8)), (Z.eqb_spec (i mod 8) (j mod 8)); subst; cbn [andb]; try reflexivity; lia.
Qed.
Lemma pow_bit (v : bool) k j : 0 <= k < 8 -> 0 <= j < 8 -> Z.testbit (wrap 8 (Z.shiftl (Z.b2z v) k)) j = v && (k =? j).
Proof.
  intros Hk Hj.
  assert (forallb (fun k => forallb (fun j => forallb (fun v : bool =>
    Bool.eqb (Z.testbit (wrap 8 (Z.shiftl (Z.b2z v) k)) j) (v && (k =? j))) [true; false]) (zrange 8)) (zrange 8) = true) as T
    by (vm_compute; reflexivity).
  rewrite forallb_forall in T. specialize (T k ltac:(apply zrange_in; lia)).
  rewrite forallb_forall in T. specialize (T j ltac:(apply zrange_in; lia)).
  rewrite forallb_forall in T. specialize (T v ltac:(destruct v; cbn; auto)). apply eqb_prop in T. exact T.
Qed.

Lemma bbit_or buf i v j : bbit (or_bit buf i v) j = bbit buf j || (v && (i =? j)).
Proof.
  unfold bbit, or_bit. rewrite byte_ix, bit_ix, (same_bit i j).
  pose proof (Z.mod_pos_bound i 8 ltac:(lia)). pose proof (Z.mod_pos_bound j 8 ltac:(lia)).
  rewrite (Z.eqb_sym (i / 8)). destruct (j / 8 =? i / 8); cbn [andb].
  - rewrite Z.lor_spec, pow_bit by lia. reflexivity.
  - rewrite andb_false_r, orb_false_r. reflexivity.
Qed.
Lemma bbit_clear buf i j : bbit (clear_bit buf i) j = bbit buf j && negb (i =? j).
Proof.
  unfold bbit, clear_bit. rewrite byte_ix, bit_ix, (same_bit i j).
  pose proof (Z.mod_pos_bound i 8 ltac:(lia)). pose proof (Z.mod_pos_bound j 8 ltac:(lia)).
  rewrite (Z.eqb_sym (i / 8)). destruct (j / 8 =? i / 8); cbn [andb negb].
  - rewrite Z.land_spec, wnot_testbit by lia.
    assert (Z.testbit (wrap 8 (Z.shiftl 1 (i mod 8))) (j mod 8) = (i mod 8 =? j mod 8)) as E
      by (exact (pow_bit true _ _ H H0)).
    rewrite E. destruct (Z.ltb_spec (j mod 8) 8); [|lia]. reflexivity.
  - rewrite andb_true_r. reflexivity.
Qed.
Lemma byte_or buf i v : byte_mem buf -> byte_mem (or_bit buf i v).
Proof.
  intros H k. unfold or_bit. destruct (k =? Z.shiftr i 3); [|apply H].
  change 256 with (2 ^ 8). apply (inw_lor 8); [lia|apply H|]. apply wrap_range. lia.
Qed.
Lemma byte_clear buf i : byte_mem buf -> byte_mem (clear_bit buf i).
Proof.
  intros H k. unfold clear_bit. destruct (k =? Z.shiftr i 3); [|apply H].
  change 256 with (2 ^ 8). apply (inw_land_l 8); [lia|apply H].
Qed.

(** From the final buffer to the register file. *)
Lemma bbit_copy vb rf vd i : bbit (copy_reg vb rf vd) i = vbit vb rf vd i.
Proof. reflexivity. Qed.
Lemma byte_copy vb rf vd : byte_mem rf -> byte_mem (copy_reg vb rf vd).
Proof. intros H k. apply H. Qed.
Lemma vbit_submit vb rf buf vd i : 0 <= i < 8 * vb -> vbit vb (submit vb rf buf vd) vd i = bbit buf i.
Proof.
  intros Hi. unfold vbit, submit, bbit. assert (0 <= i / 8 < vb) by (split; [apply Z.div_pos; lia|apply Z.div_lt_upper_bound; lia]).
  destruct (Z.leb_spec (vd * vb) (vd * vb + i / 8)), (Z.ltb_spec (vd * vb + i / 8) ((vd + 1) * vb)); try lia. cbn [andb].
  replace (vd * vb + i / 8 - vd * vb) with (i / 8) by lia. reflexivity.
Qed.
Lemma submit_other vb rf buf vd a : ~ (vd * vb <= a < (vd + 1) * vb) -> submit vb rf buf vd a = rf a.
Proof. intros H. unfold submit. destruct (Z.leb_spec (vd * vb) a), (Z.ltb_spec a ((vd + 1) * vb)); try reflexivity; lia. Qed.
Lemma byte_submit vb rf buf vd : byte_mem rf -> byte_mem buf -> byte_mem (submit vb rf buf vd).
Proof. intros H1 H2 a. unfold submit. destruct (_ && _); [apply H2|apply H1]. Qed.
Lemma mask_update_submit vb vd (P : Z -> Prop) f rf buf : byte_mem rf -> byte_mem buf ->
  (forall i, 0 <= i < 8 * vb -> P i -> bbit buf i = f i) ->
  (forall i, 0 <= i < 8 * vb -> ~ P i -> bbit buf i = vbit vb rf vd i) ->
  mask_update vb vd P f rf (submit vb rf buf vd).
Proof.
  intros Hr Hb H1 H2. split; [|split; [|split]].
  - intros i Hi HP. rewrite vbit_submit by lia. apply H1; assumption.
  - intros i Hi HP. rewrite vbit_submit by lia. apply H2; assumption.
  - intros a Ha. apply submit_other. exact Ha.
  - apply byte_submit; assumption.
Qed.

(** The loop of the two-operand mask-writing instructions. *)
Lemma mask_loop_spec body fuel : forall buf i n, byte_mem buf -> n - i <= Z.of_nat fuel ->
  (forall j, i <= j < n -> body j <> None) ->
  exists buf', mask_loop body fuel buf i n = Some buf' /\ byte_mem buf' /\
    forall j, bbit buf' j = if (i <=? j) && (j <? n) then match body j with Some (Some v) => v | _ => bbit buf j end else bbit buf j.
Proof.
  induction fuel as [|f IH]; intros buf i n Hb Hf Hd; cbn [mask_loop].
  - exists buf. split; [reflexivity|]. split; [exact Hb|]. intros j. destruct (Z.leb_spec i j), (Z.ltb_spec j n); try reflexivity; lia.
  - destruct (Z.ltb_spec i n).
    + destruct (body i) as [r|] eqn:E; [|exfalso; apply (Hd i); [lia|exact E]]. cbn [obind].
      edestruct (IH (match r with Some v => or_bit (clear_bit buf i) i v | None => buf end) (i + 1) n) as (buf' & E' & Hb' & Hj).
      * destruct r; [apply byte_or, byte_clear|]; exact Hb.
      * lia.
      * intros j Hj. apply Hd. lia.
      * exists buf'. split; [exact E'|]. split; [exact Hb'|]. intros j. rewrite Hj.
        assert (bbit (match r with Some v => or_bit (clear_bit buf i) i v | None => buf end) j =
          if i =? j then match body j with Some (Some v) => v | _ => bbit buf j end else bbit buf j) as EB.
        { destruct (Z.eqb_spec i j) as [<-|].
          - rewrite E. destruct r as [v|]; [|reflexivity]. rewrite bbit_or, bbit_clear, Z.eqb_refl. destruct (bbit buf i), v; reflexivity.
          - destruct r as [v|]; [|reflexivity]. rewrite bbit_or, bbit_clear. destruct (Z.eqb_spec i j); [lia|].
            destruct (bbit buf j), v; reflexivity. }
        rewrite EB. clear EB. destruct (Z.eqb_spec i j) as [Eij|]; [subst j|].
        -- destruct (Z.leb_spec (i + 1) i), (Z.leb_spec i i), (Z.ltb_spec i n); try lia. cbn [andb]. reflexivity.
        -- destruct (Z.leb_spec (i + 1) j), (Z.leb_spec i j), (Z.ltb_spec j n); try lia; reflexivity.
    + exists buf. split; [reflexivity|]. split; [exact Hb|]. intros j. destruct (Z.leb_spec i j), (Z.ltb_spec j n); try reflexivity; lia.
Qed.

Lemma mask_of_ok vb rf vm i : 0 <= i -> mask_value rf vm i = mask_of vb rf vm i.
Proof. intros Hi. exact (mask_ok vb rf {| vi_op := Vadd; vi_vd := 0; vi_vs2 := 0; vi_src1 := Scalar 0; vi_vm := vm |} i Hi). Qed.
Lemma src_bit_ok vb rf r i : 0 <= i -> src_bit vb rf r i = vbit vb rf r i.
Proof.
  intros Hi. unfold src_bit, vbit, copy_reg. rewrite byte_ix, bit_ix.
  change 1 with (Z.ones 1). rewrite Z.land_ones by lia. change (2 ^ 1) with 2.
  pose proof (Z.mod_pos_bound i 8 ltac:(lia)).
  rewrite <- Z.bit0_mod, Z.shiftr_spec, Z.add_0_l by lia. destruct (Z.testbit _ _); reflexivity.
Qed.

Definition src_group (sew lmul8 : Z) (s : src) : Prop := match s with Vec r => group sew lmul8 sew r | Scalar _ => True end.

(** Compares and carries. *)
Lemma vl_bits vb sew lmul8 vl : config vb sew lmul8 vl -> 0 <= vl <= 8 * vb /\ 8 <= vb.
Proof.
  intros HC. destruct (config_vb _ _ _ _ HC) as (m & Hm & Hvb). destruct HC as (_ & Hs & Hl & Hv). split; [|lia].
  split; [lia|]. transitivity (vb * lmul8 / (8 * sew)); [lia|].
  assert (1 <= sew /\ 0 < lmul8 <= 64) as (H1 & H2).
  { split; [destruct Hs as [<-|[<-|[<-|[<-|[]]]]]; lia|]. destruct Hl as [<-|[<-|[<-|[<-|[<-|[<-|[<-|[]]]]]]]]; lia. }
  apply Z.div_le_upper_bound; nia.
Qed.

Lemma mask_binary_spec (skip : bool) st op vd vs2 s1 vm (used : bool) :
  let c := cfg st in
  config (vlenb c) (sew c) (lmul8 c) (vl c) -> group (sew c) (lmul8 c) (sew c) vs2 -> src_group (sew c) (lmul8 c) s1 ->
  byte_mem (regs st) -> vexc c = false -> 0 <= vstart c -> (skip = true -> used = true) ->
  exists st', mask_binary skip st (sew c) op vd vs2 s1 vm used = Some st' /\ cfg st' = set_vstart c 0 /\
    mask_update (vlenb c) vd (fun i => vstart c <= i < vl c /\ (skip = true -> mask_of (vlenb c) (regs st) vm i = true))
      (fun i => op (elem (vlenb c) (regs st) vs2 (sew c) i) (src1_elem (vlenb c) (regs st) (sew c) s1 i)
                  (used && mask_of (vlenb c) (regs st) vm i))
      (regs st) (regs st').
Proof.
  intros c HC H2 H1 Hb Hx Hs Hsk. unfold mask_binary. fold c. rewrite Hx.
  match goal with |- context [mask_loop ?b _ _ _ _] => set (body := b) end. pose proof (vl_bits _ _ _ _ HC) as (Hvl & Hvb8).
  assert (forall i, vstart c <= i < vl c -> body i = Some (if skip && negb (mask_of (vlenb c) (regs st) vm i) then None else
     Some (op (elem (vlenb c) (regs st) vs2 (sew c) i) (src1_elem (vlenb c) (regs st) (sew c) s1 i) (used && mask_of (vlenb c) (regs st) vm i)))) as HB.
  { intros i Hi. unfold body. rewrite (mask_of_ok (vlenb c)) by lia. cbv zeta.
    replace (skip && (used && negb (mask_of (vlenb c) (regs st) vm i))) with (skip && negb (mask_of (vlenb c) (regs st) vm i))
      by (destruct skip; [rewrite (Hsk eq_refl)|]; reflexivity).
    destruct (skip && negb _); [reflexivity|].
    rewrite (read_elem_ok _ (sew c) (lmul8 c) (vl c)) by (assumption || lia). cbn [obind].
    rewrite (read_src1_ok _ (sew c) (lmul8 c) (vl c)) by (assumption || lia). reflexivity. }
  destruct (mask_loop_spec body (Z.to_nat (vl c)) (copy_reg (vlenb c) (regs st) vd) (vstart c) (vl c)) as (buf & -> & Hbuf & Hbits).
  { apply byte_copy; exact Hb. } { lia. } { intros j Hj. rewrite HB by lia. discriminate. }
  cbn [obind]. eexists. split; [reflexivity|]. cbn [regs cfg]. split; [reflexivity|].
  apply mask_update_submit; [exact Hb|exact Hbuf| |].
  - intros i Hi (Hr & Hm). rewrite Hbits. destruct (Z.leb_spec (vstart c) i), (Z.ltb_spec i (vl c)); try lia. cbn [andb].
    rewrite HB by lia. destruct skip; cbn [andb]; [rewrite (Hm eq_refl)|]; reflexivity.
  - intros i Hi Hn. rewrite Hbits, bbit_copy. destruct (Z.leb_spec (vstart c) i), (Z.ltb_spec i (vl c)); try reflexivity. cbn [andb].
    rewrite HB by lia. destruct skip; cbn [andb].
    + destruct (mask_of (vlenb c) (regs st) vm i) eqn:E; [|reflexivity]. exfalso. apply Hn. split; [lia|]. intros _. reflexivity.
    + exfalso. apply Hn. split; [lia|]. discriminate.
Qed.

Lemma sew_in vb sew lmul8 vl : config vb sew lmul8 vl -> existsb (Z.eqb sew) [1; 2; 4; 8] = true.
Proof. intros (_ & Hs & _). destruct Hs as [<-|[<-|[<-|[<-|[]]]]]; reflexivity. Qed.
Lemma sew_ge1 vb sew lmul8 vl : config vb sew lmul8 vl -> 1 <= sew.
Proof. intros (_ & Hs & _). destruct Hs as [<-|[<-|[<-|[<-|[]]]]]; lia. Qed.

(** vmadc and vmsbc element functions. *)
Lemma madc_small sew x y m : In sew [1; 2; 4] -> inw (8 * sew) x -> inw (8 * sew) y ->
  carry_op Madc sew x y m = (2 ^ (8 * sew) <=? x + y + Z.b2z m).
Proof.
  intros Hs Hx Hy. unfold carry_op. destruct (Z.eqb_spec sew 8); [destruct Hs as [<-|[<-|[<-|[]]]]; discriminate|].
  unfold inw in *. assert (1 <= sew) by (destruct Hs as [<-|[<-|[<-|[]]]]; lia).
  pose proof (pow2_pos (8 * sew) ltac:(lia)). assert (2 <= 2 ^ (8 * sew)).
  { change 2 with (2 ^ 1) at 1. apply Z.pow_le_mono_r; lia. }
  assert (0 <= Z.b2z m <= 1) by (destruct m; cbn; lia).
  assert (2 ^ (16 * sew) = 2 ^ (8 * sew) * 2 ^ (8 * sew)) as E by (rewrite <- Z.pow_add_r by lia; f_equal; lia).
  rewrite wrap_id by (unfold inw; rewrite E; nia).
  rewrite Z.shiftr_div_pow2 by lia.
  destruct (Z.leb_spec (2 ^ (8 * sew)) (x + y + Z.b2z m)).
  - destruct (Z.eqb_spec ((x + y + Z.b2z m) / 2 ^ (8 * sew)) 0) as [E0|]; [|reflexivity].
    apply Z.div_small_iff in E0; lia.
  - rewrite Z.div_small by lia. reflexivity.
Qed.
Lemma msbc_ok sew x y m : carry_op Msbc sew x y m = (x - y - Z.b2z m <? 0).
Proof.
  unfold carry_op. destruct (sew =? 8).
  - destruct m; cbn [Z.b2z]; destruct (Z.ltb_spec x y), (Z.eqb_spec x y), (Z.ltb_spec (x - y - 1) 0), (Z.ltb_spec (x - y - 0) 0); try reflexivity; lia.
  - destruct (Z.ltb_spec x (Z.b2z m + y)), (Z.ltb_spec (x - y - Z.b2z m) 0); try reflexivity; lia.
Qed.
Lemma madc64 x y m : inw 64 x -> inw 64 y -> x / 256 + y / 256 <> 2 ^ 56 - 1 ->
  carry_op Madc 8 x y m = (2 ^ 64 <=? x + y + Z.b2z m).
Proof.
  intros Hx Hy Hne. unfold inw in *. unfold carry_op. change (8 =? 8) with true. cbv iota zeta.
  set (t := Z.land (Z.land y (wrap 64 (255 + x))) (wrap 64 (255 + Z.b2z m))).
  assert (0 <= t < 512) as Ht.
  { unfold t. assert (0 <= wrap 64 (255 + Z.b2z m) < 512) by (destruct m; vm_compute; split; congruence).
    change 512 with (2 ^ 9). apply (inw_land_r 9); [lia|exact H]. }
  rewrite !Z.shiftr_div_pow2 by lia. change (2 ^ 8) with 256.
  assert (0 <= t / 256 <= 1). { split; [apply Z.div_pos; lia|]. apply Z.lt_succ_r, Z.div_lt_upper_bound; lia. }
  pose proof (Z.div_mod x 256 ltac:(lia)). pose proof (Z.mod_pos_bound x 256 ltac:(lia)).
  pose proof (Z.div_mod y 256 ltac:(lia)). pose proof (Z.mod_pos_bound y 256 ltac:(lia)).
  assert (0 <= Z.b2z m <= 1) by (destruct m; cbn; lia).
  assert (0 <= x / 256 < 2 ^ 56 /\ 0 <= y / 256 < 2 ^ 56) as (Hxh & Hyh).
  { split; (split; [apply Z.div_pos; lia|apply Z.div_lt_upper_bound; lia]). }
  rewrite wrap_id by (unfold inw; lia).
  destruct (Z.leb_spec (2 ^ 64) (x + y + Z.b2z m)).
  - destruct (Z.eqb_spec ((y / 256 + x / 256 + t / 256) / 2 ^ 56) 0) as [E0|]; [|reflexivity].
    apply Z.div_small_iff in E0; lia.
  - rewrite Z.div_small by lia. reflexivity.
Qed.
