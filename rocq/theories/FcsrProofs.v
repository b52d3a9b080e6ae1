(** Proofs about the floating-point control register and the host flag tables. *)
From Coq Require Import ZArith Bool List Lia.
From Verif Require Import Bits FcsrSpec FcsrModel.
Import ListNotations.
Local Open Scope Z_scope.

(** ** Tables *)
Definition table_of (h : host) : list Z := match h with X86 => kX86FlagsToRiscvMap | Arm => kArmFlagsToRiscvMap end.
Definition table_to (h : host) : list Z := match h with X86 => kRiscVFlagsToX86 | Arm => kRiscVFlagsToArm end.
Definition fsize (h : host) : Z := match h with X86 => 64 | Arm => 32 end.

Lemma table_of_ok h x : 0 <= x < fsize h -> at_ (table_of h) x = flags_of_host h x.
Proof.
  intros Hx. pose proof (forall_zrange (fun x => at_ (table_of h) x =? flags_of_host h x) (fsize h)) as F.
  cbn beta in F. apply Z.eqb_eq. apply F; [destruct h; vm_compute; reflexivity|exact Hx].
Qed.

Lemma table_to_ok h f : 0 <= f < 32 ->
  0 <= at_ (table_to h) f < fsize h /\ flags_of_host h (at_ (table_to h) f) = f.
Proof.
  intros Hx.
  pose proof (forall_zrange (fun f => (0 <=? at_ (table_to h) f) && (at_ (table_to h) f <? fsize h)
     && (flags_of_host h (at_ (table_to h) f) =? f)) 32) as F.
  cbn beta in F. assert (G : (0 <=? at_ (table_to h) f) && (at_ (table_to h) f <? fsize h)
     && (flags_of_host h (at_ (table_to h) f) =? f) = true).
  { apply F; [destruct h; vm_compute; reflexivity|exact Hx]. }
  rewrite !andb_true_iff in G. destruct G as [[G1 G2] G3].
  apply Z.leb_le in G1. apply Z.ltb_lt in G2. apply Z.eqb_eq in G3. auto.
Qed.

Lemma b2z_lor2 a b : Z.b2z (a || b) = Z.b2z a + Z.b2z b - Z.b2z a * Z.b2z b.
Proof. destruct a, b; reflexivity. Qed.

Lemma flags_of_host_range h x : 0 <= flags_of_host h x < 32.
Proof.
  unfold flags_of_host, NX, UF, OF, DZ, NV. cbn [fold_right].
  change (2 ^ 0) with 1. change (2 ^ 1) with 2. change (2 ^ 2) with 4. change (2 ^ 3) with 8. change (2 ^ 4) with 16.
  destruct (Z.testbit x (host_bit h 0)), (Z.testbit x (host_bit h 1)), (Z.testbit x (host_bit h 2)),
    (Z.testbit x (host_bit h 3)), (Z.testbit x (host_bit h 4)); cbn [Z.b2z]; lia.
Qed.

Lemma flags_of_host_lor h x y : flags_of_host h (Z.lor x y) = Z.lor (flags_of_host h x) (flags_of_host h y).
Proof.
  unfold flags_of_host, NX, UF, OF, DZ, NV. cbn [fold_right]. rewrite !Z.lor_spec.
  destruct (Z.testbit x (host_bit h 0)), (Z.testbit x (host_bit h 1)), (Z.testbit x (host_bit h 2)),
    (Z.testbit x (host_bit h 3)), (Z.testbit x (host_bit h 4)),
    (Z.testbit y (host_bit h 0)), (Z.testbit y (host_bit h 1)), (Z.testbit y (host_bit h 2)),
    (Z.testbit y (host_bit h 3)), (Z.testbit y (host_bit h 4)); reflexivity.
Qed.

(** Only the flag field of the host word matters. *)
Lemma flags_of_host_mask h x : flags_of_host h (Z.land x (Z.ones (host_flag_bits h))) = flags_of_host h x.
Proof.
  assert (A : forall n, 0 <= n < host_flag_bits h -> Z.testbit (Z.land x (Z.ones (host_flag_bits h))) n = Z.testbit x n).
  { intros n Hn. rewrite Z.land_spec, Z.ones_spec_low by exact Hn. apply andb_true_r. }
  unfold flags_of_host. cbn [fold_right].
  rewrite !A by (destruct h; vm_compute; split; congruence). reflexivity.
Qed.

Lemma table_to_lor h f g : 0 <= f < 32 -> 0 <= g < 32 ->
  at_ (table_to h) (Z.lor f g) = Z.lor (at_ (table_to h) f) (at_ (table_to h) g).
Proof.
  intros Hf Hg.
  pose proof (forall_zrange (fun f => forallb (fun g => at_ (table_to h) (Z.lor f g) =?
    Z.lor (at_ (table_to h) f) (at_ (table_to h) g)) (zrange 32)) 32) as F. cbn beta in F.
  specialize (F ltac:(destruct h; vm_compute; reflexivity) f Hf).
  rewrite forallb_forall in F. apply Z.eqb_eq, F, zrange_in. exact Hg.
Qed.

(** ** Words of the interface *)
Definition hkind (h : hstate) : host := match h with HX86 _ => X86 | HArm _ _ => Arm end.
Definition hword (h : hstate) : Z := match h with HX86 s => s | HArm _ s => s end.
Definition hflags (h : hstate) : Z := flags_of_host (hkind h) (hword h).
Definition hrm (h : hstate) : Z :=
  match h with
  | HX86 s => at_ kX86ToRiscVRoundingModeMap (Z.land (Z.shiftr s 13) 0x3)
  | HArm c _ => at_ kArmToRiscVRoundingModeMap (Z.land (Z.shiftr c 22) 0x3) end.

Lemma land_ones_range x n : 0 <= n -> 0 <= Z.land x (Z.ones n) < 2 ^ n.
Proof. intros. rewrite Z.land_ones by assumption. apply Z.mod_pos_bound. apply Z.pow_pos_nonneg; lia. Qed.

Lemma hrm_range h : 0 <= hrm h <= 3.
Proof.
  destruct h as [s|c s]; unfold hrm; [pose proof (land_ones_range (Z.shiftr s 13) 2 ltac:(lia)) as R
    |pose proof (land_ones_range (Z.shiftr c 22) 2 ltac:(lia)) as R];
  change (Z.ones 2) with 3 in R; change (2 ^ 2) with 4 in R;
  [set (x := Z.land (Z.shiftr s 13) 3) in *|set (x := Z.land (Z.shiftr c 22) 3) in *]; clearbody x;
  assert (x = 0 \/ x = 1 \/ x = 2 \/ x = 3) as [->|[->|[->| ->]]] by lia; vm_compute; split; congruence.
Qed.

Lemma join f m : 0 <= f < 32 -> 0 <= m < 8 -> Z.lor f (Z.shiftl m 5) = 32 * m + f.
Proof.
  intros Hf Hm.
  pose proof (forall_zrange (fun f => forallb (fun m => Z.lor f (Z.shiftl m 5) =? 32 * m + f) (zrange 8)) 32) as F.
  cbn beta in F. specialize (F ltac:(vm_compute; reflexivity) f Hf). rewrite forallb_forall in F.
  apply Z.eqb_eq, F, zrange_in, Hm.
Qed.

Lemma get_fcsr_parts h : get_riscv_fcsr h = 32 * hrm h + hflags h.
Proof.
  assert (A : forall rm f, 0 <= rm <= 3 -> 0 <= f < 32 -> Z.lor (Z.shiftl rm 5) (Z.land f 0x1f) = 32 * rm + f).
  { intros rm f Hr Hf.
    assert (Z.land f 31 = f) as ->. { change 31 with (Z.ones 5). rewrite Z.land_ones by lia. apply Z.mod_small. lia. }
    rewrite Z.lor_comm. apply join; lia. }
  pose proof (hrm_range h) as Hr. pose proof (flags_of_host_range (hkind h) (hword h)) as Hf.
  unfold hflags. rewrite <- A by assumption. unfold get_riscv_fcsr.
  destruct h as [s|c s]; cbn [hkind hword hrm] in *; f_equal; f_equal.
  - change (at_ kX86FlagsToRiscvMap) with (at_ (table_of X86)).
    rewrite table_of_ok by apply (land_ones_range s 6 ltac:(lia)). apply (flags_of_host_mask X86).
  - change (at_ kArmFlagsToRiscvMap) with (at_ (table_of Arm)).
    rewrite table_of_ok by apply (land_ones_range s 5 ltac:(lia)). apply (flags_of_host_mask Arm).
Qed.

Lemma get_fcsr_low h : Z.land (get_riscv_fcsr h) 0x1f = hflags h.
Proof.
  rewrite get_fcsr_parts. change 0x1f with (Z.ones 5). rewrite Z.land_ones by lia. change (2 ^ 5) with 32.
  pose proof (flags_of_host_range (hkind h) (hword h)). fold (hflags h) in *.
  rewrite Z.add_comm, Z.mul_comm, Z.mod_add by lia. apply Z.mod_small. assumption.
Qed.

(** The rounding mode the stored word gets for an frm field. *)
Definition stored_rm (h : host) (m : Z) : Z :=
  match h with X86 => if m <=? 3 then m else 0 | Arm => 0 end.

Lemma set_fcsr_ok h w : 0 <= w < 256 ->
  hkind (set_riscv_fcsr h w) = hkind h /\ hflags (set_riscv_fcsr h w) = w mod 32 /\
  hrm (set_riscv_fcsr h w) = stored_rm (hkind h) (w / 32).
Proof.
  intros Hw. destruct h as [s|c s].
  - split; [reflexivity|].
    pose proof (forall_zrange (fun w => (hflags (set_riscv_fcsr (HX86 0) w) =? w mod 32)
      && (hrm (set_riscv_fcsr (HX86 0) w) =? stored_rm X86 (w / 32))) 256) as F. cbn beta in F.
    specialize (F ltac:(vm_compute; reflexivity) w Hw). apply andb_true_iff in F. destruct F as [F1 F2].
    apply Z.eqb_eq in F1. apply Z.eqb_eq in F2. split; assumption.
  - split; [reflexivity|].
    pose proof (forall_zrange (fun w => (hflags (set_riscv_fcsr (HArm 0 0) w) =? w mod 32)
      && (hrm (set_riscv_fcsr (HArm 0 0) w) =? stored_rm Arm (w / 32))) 256) as F. cbn beta in F.
    specialize (F ltac:(vm_compute; reflexivity) w Hw). apply andb_true_iff in F. destruct F as [F1 F2].
    apply Z.eqb_eq in F1. apply Z.eqb_eq in F2. split; assumption.
Qed.

Lemma set_fcsr_twice h w : set_riscv_fcsr (set_riscv_fcsr h w) w = set_riscv_fcsr h w.
Proof. destruct h; reflexivity. Qed.

(** ** One instruction on the host *)
Lemma flags_lor_const h a x : 0 <= a -> Z.land a (Z.ones (host_flag_bits h)) = 0 ->
  flags_of_host h (Z.lor a x) = flags_of_host h x.
Proof.
  intros _ H. rewrite flags_of_host_lor. rewrite <- (flags_of_host_mask h a), H.
  destruct h; reflexivity.
Qed.

Lemma rm_map_low m : 0 <= m <= 4 ->
  Z.land (at_ kRiscVToX86RoundingModeMap m) (Z.ones 6) = 0 /\
  0 <= at_ kRiscVToX86RoundingModeMap m /\
  at_ kX86ToRiscVRoundingModeMap (Z.land (Z.shiftr (at_ kRiscVToX86RoundingModeMap m) 13) 3) = on_host m /\
  at_ kArmToRiscVRoundingModeMap (Z.land (Z.shiftr (at_ kRiscVToArmRoundingModeMap m) 22) 3) = on_host m.
Proof.
  intros Hm. assert (m = 0 \/ m = 1 \/ m = 2 \/ m = 3 \/ m = 4) as [->|[->|[->|[->| ->]]]] by lia;
    (split; [reflexivity|split; [vm_compute; congruence|split; reflexivity]]).
Qed.

Lemma rm_bits_lor a b : Z.land (Z.shiftr (Z.lor a (Z.land b 0x1fff)) 13) 3 = Z.land (Z.shiftr a 13) 3.
Proof.
  f_equal. rewrite Z.shiftr_lor. replace (Z.shiftr (Z.land b 8191) 13) with 0; [apply Z.lor_0_r|].
  rewrite Z.shiftr_land. change (Z.shiftr 8191 13) with 0. symmetry. apply Z.land_0_r.
Qed.

Lemma rm_bits_flags a x : 0 <= x < 64 ->
  Z.land (Z.shiftr (Z.lor 0x1f80 (Z.lor a x)) 13) 3 = Z.land (Z.shiftr a 13) 3.
Proof.
  intros Hx. f_equal. rewrite !Z.shiftr_lor. change (Z.shiftr 0x1f80 13) with 0. rewrite Z.lor_0_l.
  replace (Z.shiftr x 13) with 0; [apply Z.lor_0_r|].
  rewrite Z.shiftr_div_pow2 by lia. symmetry. apply Z.div_small. lia.
Qed.

Lemma arm_rm_keep c : Z.land (Z.shiftr (Z.land c kArmToZero) 22) 3 = Z.land (Z.shiftr c 22) 3.
Proof.
  rewrite Z.shiftr_land. change (Z.shiftr kArmToZero 22) with 3. rewrite <- Z.land_assoc. reflexivity.
Qed.

Lemma scoped_static h m x : 0 <= m <= 4 -> 0 <= x < 2 ^ host_flag_bits (hkind h) ->
  let (h', u) := scoped h (Some m) x in
  u = on_host m /\ hkind h' = hkind h /\ hflags h' = Z.lor (hflags h) (flags_of_host (hkind h) x) /\
  hrm h' = match hkind h with X86 => on_host m | Arm => hrm h end.
Proof.
  intros Hm Hx. destruct (rm_map_low m Hm) as [M1 [M2 [M3 M4]]].
  assert (m =? 7 = false) as E by (apply Z.eqb_neq; lia).
  destruct h as [s|c s]; cbn [scoped hkind host_flag_bits] in *; rewrite E; unfold hflags; cbn [hkind hword hrm].
  - change (2 ^ 6) with 64 in Hx. rewrite rm_bits_lor, M3. split; [reflexivity|]. split; [reflexivity|].
    change kX86ExceptionFlags with 0x1f80. rewrite rm_bits_flags, rm_bits_lor, M3 by exact Hx. split; [|reflexivity].
    rewrite (flags_lor_const X86 0x1f80) by (vm_compute; congruence).
    rewrite flags_of_host_lor. f_equal. rewrite (flags_lor_const X86) by assumption.
    rewrite <- (flags_of_host_mask X86 (Z.land s 8191)), <- (flags_of_host_mask X86 s), <- Z.land_assoc. reflexivity.
  - split; [exact M4|]. split; [reflexivity|]. split; [apply flags_of_host_lor|]. rewrite arm_rm_keep. reflexivity.
Qed.

Lemma scoped_none h x : 0 <= x < 2 ^ host_flag_bits (hkind h) ->
  let (h', u) := scoped h None x in
  u = hrm h /\ hkind h' = hkind h /\ hflags h' = Z.lor (hflags h) (flags_of_host (hkind h) x) /\ hrm h' = hrm h.
Proof.
  intros Hx. destruct h as [s|c s]; cbn [scoped hkind host_flag_bits] in *; unfold hflags; cbn [hkind hword hrm].
  - change (2 ^ 6) with 64 in Hx. split; [reflexivity|]. split; [reflexivity|].
    change kX86ExceptionFlags with 0x1f80. rewrite rm_bits_flags by exact Hx. split; [|reflexivity].
    rewrite (flags_lor_const X86 0x1f80) by (vm_compute; congruence). apply flags_of_host_lor.
  - split; [reflexivity|]. split; [reflexivity|]. split; [apply flags_of_host_lor|]. rewrite arm_rm_keep. reflexivity.
Qed.

(** ** The registers *)
Definition fr (s : fpstate) : Z := value s / 32.
Definition fl (s : fpstate) : Z := hflags (hst s).

Record inv (h : host) (s : fpstate) : Prop := {
  inv_value : 0 <= value s < 256;
  inv_kind : hkind (hst s) = h;
  inv_rmode : 0 <= rmode s <= 4;
  inv_legal : fr s <= 4 -> rmode s = fr s;
  inv_illegal : 4 < fr s -> valid s = false }.

Lemma inv_init h : inv h (init h).
Proof.
  split; destruct h; try reflexivity; cbn [value init rmode fr]; try lia; unfold fr; cbn; lia.
Qed.

Lemma fr_range s : 0 <= value s < 256 -> 0 <= fr s < 8.
Proof. intros H. unfold fr. split; [apply Z.div_pos; lia|apply Z.div_lt_upper_bound; lia]. Qed.
Lemma fl_range s : 0 <= fl s < 32.
Proof. apply flags_of_host_range. Qed.

Definition combine (v f : Z) : Z := Z.land (Z.lor (Z.land v (wnot 32 0x1f)) f) kFcsrMask.
Lemma combine_ok v f : 0 <= v < 256 -> 0 <= f < 32 -> combine v f = 32 * (v / 32) + f.
Proof.
  intros Hv Hf.
  pose proof (forall_zrange (fun v => forallb (fun f => combine v f =? 32 * (v / 32) + f) (zrange 32)) 256) as F.
  cbn beta in F. specialize (F ltac:(vm_compute; reflexivity) v Hv). rewrite forallb_forall in F.
  apply Z.eqb_eq, F, zrange_in, Hf.
Qed.

Lemma fcsr_as_ok s : 0 <= value s < 256 -> fcsr_as s = 32 * fr s + fl s.
Proof.
  intros H. unfold fcsr_as. rewrite get_fcsr_low. apply combine_ok; [exact H|apply fl_range].
Qed.

Lemma land255 v : Z.land v kFcsrMask = v mod 256.
Proof. change kFcsrMask with (Z.ones 8). rewrite Z.land_ones by lia. reflexivity. Qed.
Lemma land31 v : Z.land v 0x1f = v mod 32.
Proof. change 0x1f with (Z.ones 5). rewrite Z.land_ones by lia. reflexivity. Qed.
Lemma land7 v : Z.land v 0x7 = v mod 8.
Proof. change 0x7 with (Z.ones 3). rewrite Z.land_ones by lia. reflexivity. Qed.
Lemma shiftr5 v : Z.shiftr v 5 = v / 32.
Proof. rewrite Z.shiftr_div_pow2 by lia. reflexivity. Qed.

Lemma high3 w : 0 <= w < 256 -> Z.land (Z.shiftr w 5) 7 = w / 32.
Proof.
  intros H. rewrite shiftr5, land7. apply Z.mod_small. split; [apply Z.div_pos; lia|apply Z.div_lt_upper_bound; lia].
Qed.


Lemma legal_cases m : 0 <= m -> (m =? 4) || (m =? 0) || (m =? 1) || (m =? 2) || (m =? 3) = legal_rm m.
Proof.
  intros H. unfold legal_rm. destruct (Z.leb_spec m 4).
  - assert (m = 0 \/ m = 1 \/ m = 2 \/ m = 3 \/ m = 4) as [->|[->|[->|[->| ->]]]] by lia; reflexivity.
  - rewrite !(proj2 (Z.eqb_neq m _)) by lia. reflexivity.
Qed.

Lemma fcsr_write_unfold n s v : fcsr_write (Datatypes.S n) s v =
  let wr_value := Z.land v kFcsrMask in
  let s1 := {| value := wr_value; hst := set_riscv_fcsr (hst s) wr_value; valid := valid s; rmode := rmode s |} in
  set_rounding_mode n s1 (Z.land (Z.shiftr wr_value 5) 0x7).
Proof. reflexivity. Qed.
Lemma set_rm_unfold n s mode : set_rounding_mode (Datatypes.S n) s mode =
  if rmode s =? mode then Some s
      else if (mode =? 4) || (mode =? 0) || (mode =? 1) || (mode =? 2) || (mode =? 3) then
        let s1 := {| value := value s; hst := hst s; valid := valid s; rmode := mode |} in
        match frm_write n s1 mode with
        | Some s2 => Some {| value := value s2; hst := hst s2; valid := true; rmode := rmode s2 |}
        | None => None end
      else Some {| value := value s; hst := hst s; valid := false; rmode := rmode s |}.
Proof. reflexivity. Qed.
Lemma frm_write_unfold n s v : frm_write (Datatypes.S n) s v =
  let wr_value := Z.land v kFrmMask in
  fcsr_write n s (Z.lor (Z.land (fcsr_as s) 0x1f) (Z.shiftl wr_value 5)).
Proof. reflexivity. Qed.

Definition new_valid (s : fpstate) (m : Z) : bool :=
  if legal_rm m then (if rmode s =? m then valid s else true) else false.
Definition new_rmode (s : fpstate) (m : Z) : Z := if legal_rm m then m else rmode s.

Lemma fcsr_write_ok n s v : 0 <= rmode s <= 4 ->
  fcsr_write (5 + n) s v =
  Some {| value := v mod 256; hst := set_riscv_fcsr (hst s) (v mod 256);
          valid := new_valid s (v mod 256 / 32); rmode := new_rmode s (v mod 256 / 32) |}.
Proof.
  intros Hr. change (5 + n)%nat with (Datatypes.S (4 + n)). rewrite fcsr_write_unfold. cbv zeta. rewrite land255.
  pose proof (Z.mod_pos_bound v 256 ltac:(lia)) as Hw. set (w := v mod 256) in *. clearbody w. clear v.
  rewrite high3 by exact Hw.
  assert (Hm : 0 <= w / 32 < 8) by (split; [apply Z.div_pos; lia|apply Z.div_lt_upper_bound; lia]).
  change (4 + n)%nat with (Datatypes.S (3 + n)). rewrite set_rm_unfold. cbv zeta. cbn [rmode value hst valid].
  rewrite legal_cases by lia. unfold new_valid, new_rmode.
  destruct (Z.eqb_spec (rmode s) (w / 32)) as [E|E].
  - unfold legal_rm. rewrite <- E. destruct (Z.leb_spec (rmode s) 4); [|lia]. reflexivity.
  - destruct (legal_rm (w / 32)) eqn:EL; [|reflexivity].
    change (3 + n)%nat with (Datatypes.S (2 + n)). rewrite frm_write_unfold. cbv zeta.
    rewrite fcsr_as_ok by exact Hw. unfold fr, fl. cbn [value hst].
    destruct (set_fcsr_ok (hst s) w Hw) as [_ [F _]]. rewrite F.
    replace (Z.land (32 * (w / 32) + w mod 32) 31) with (w mod 32).
    2: { rewrite <- Z.div_mod by lia. symmetry. apply land31. }
    unfold kFrmMask. rewrite land7, (Z.mod_small (w / 32) 8) by exact Hm.
    rewrite join by (try exact Hm; apply Z.mod_pos_bound; lia). rewrite <- Z.div_mod by lia.
    change (2 + n)%nat with (Datatypes.S (1 + n)). rewrite fcsr_write_unfold. cbv zeta. rewrite land255.
    rewrite (Z.mod_small w 256) by exact Hw. rewrite high3 by exact Hw. cbn [hst valid rmode].
    change (1 + n)%nat with (Datatypes.S n). rewrite set_rm_unfold. cbv zeta. cbn [rmode value hst valid].
    rewrite Z.eqb_refl, set_fcsr_twice. reflexivity.
Qed.

(** What an update leaves: same host, new fields, invariant. *)
Record upd_ok (h : host) (s s' : fpstate) (f g : Z) : Prop := {
  uo_inv : inv h s';
  uo_fr : fr s' = f;
  uo_fl : fl s' = g;
  uo_valid : valid s' = new_valid s f;
  uo_hrm : hrm (hst s') = stored_rm h f \/ hrm (hst s') = hrm (hst s) /\ f = fr s /\ g = fl s }.

Lemma write_word h s w : inv h s -> 0 <= w ->
  exists s', fcsr_write fuel s w = Some s' /\ upd_ok h s s' (w mod 256 / 32) (w mod 32).
Proof.
  intros I Hw. unfold fuel. change 8%nat with (5 + 3)%nat. rewrite fcsr_write_ok by apply I.
  eexists. split; [reflexivity|].
  pose proof (Z.mod_pos_bound w 256 ltac:(lia)) as H.
  destruct (set_fcsr_ok (hst s) (w mod 256) H) as [K [F R]].
  assert (M : w mod 256 mod 32 = w mod 32). { symmetry. apply Znumtheory.Zmod_div_mod; [lia|lia|exists 8; reflexivity]. }
  assert (P : 0 <= w mod 256 / 32) by (apply Z.div_pos; lia).
  assert (P8 : w mod 256 / 32 < 8) by (apply Z.div_lt_upper_bound; lia).
  rewrite M in F. rewrite (inv_kind _ _ I) in *.
  split.
  - split; cbn [value hst rmode valid fr]; try assumption.
    + unfold new_rmode. destruct (legal_rm _) eqn:E; [|apply I]. unfold legal_rm in E. apply Z.leb_le in E. lia.
    + unfold fr. cbn [value]. intros G. unfold new_rmode, legal_rm. apply Z.leb_le in G. rewrite G. reflexivity.
    + unfold fr. cbn [value]. intros G. unfold new_valid, legal_rm. apply Z.leb_gt in G. rewrite G. reflexivity.
  - reflexivity.
  - exact F.
  - reflexivity.
  - left. exact R.
Qed.

Lemma valid_keep h s : inv h s -> new_valid s (fr s) = valid s.
Proof.
  intros I. unfold new_valid, legal_rm. destruct (Z.leb_spec (fr s) 4) as [G|G].
  - rewrite (inv_legal _ _ I G), Z.eqb_refl. reflexivity.
  - symmetry. apply (inv_illegal _ _ I G).
Qed.

Lemma wrap32_mod v k : 0 <= k <= 32 -> wrap 32 v mod 2 ^ k = v mod 2 ^ k.
Proof.
  intros Hk. unfold wrap. symmetry. apply Znumtheory.Zmod_div_mod; [apply Z.pow_pos_nonneg; lia|lia|].
  exists (2 ^ (32 - k)). rewrite <- Z.pow_add_r by lia. f_equal. lia.
Qed.

Lemma mod256_div32 v : v mod 256 / 32 = v / 32 mod 8.
Proof.
  change 256 with (32 * 8). rewrite (Z.rem_mul_r v 32 8) by lia.
  replace (v mod 32 + 32 * ((v / 32) mod 8)) with ((v / 32) mod 8 * 32 + v mod 32) by ring.
  rewrite Z.div_add_l by lia. rewrite (Z.div_small (v mod 32)) by (apply Z.mod_pos_bound; lia). lia.
Qed.

Lemma divmod_join m f : 0 <= m < 8 -> 0 <= f < 32 ->
  (32 * m + f) mod 256 / 32 = m /\ (32 * m + f) mod 32 = f.
Proof.
  intros Hm Hf. rewrite (Z.mod_small (32 * m + f) 256) by lia. split.
  - rewrite Z.mul_comm, Z.div_add_l by lia. rewrite Z.div_small by lia. lia.
  - rewrite Z.add_comm, Z.mul_comm, Z.mod_add by lia. apply Z.mod_small. lia.
Qed.

Lemma csr_write_ok h s c v : inv h s -> 0 <= v ->
  exists s', csr_write s c v = Some s' /\
    upd_ok h s s' (frm (write {| frm := fr s; fflags := fl s |} c v))
                  (fflags (write {| frm := fr s; fflags := fl s |} c v)).
Proof.
  intros I Hv. pose proof (fr_range s (inv_value _ _ I)) as Hfr. pose proof (fl_range s) as Hfl.
  assert (W : 0 <= wrap 32 v) by (apply Z.mod_pos_bound; lia).
  destruct c; cbn [csr_write write frm fflags].
  - destruct (write_word h s (wrap 32 v) I W) as [s' [E U]]. exists s'. split; [exact E|].
    pose proof (wrap32_mod v 8 ltac:(lia)) as W8. change (2 ^ 8) with 256 in W8. rewrite W8 in U.
    pose proof (wrap32_mod v 5 ltac:(lia)) as W5. change (2 ^ 5) with 32 in W5. rewrite W5 in U.
    rewrite mod256_div32 in U. exact U.
  - unfold fflags_write. rewrite fcsr_as_ok by apply I.
    assert (N : Z.lor (Z.land (32 * fr s + fl s) (wnot 32 kFflagsMask)) (Z.land (wrap 32 v) kFflagsMask)
                = 32 * fr s + v mod 32).
    { unfold kFflagsMask. rewrite land31. pose proof (wrap32_mod v 5 ltac:(lia)) as W5. change (2 ^ 5) with 32 in W5.
      rewrite W5. pose proof (Z.mod_pos_bound v 32 ltac:(lia)) as Hr. set (r := v mod 32) in *. clearbody r.
      pose proof (combine_ok (32 * fr s + fl s) r ltac:(lia) Hr) as C. unfold combine in C.
      destruct (divmod_join (fr s) (fl s) Hfr Hfl) as [D _]. rewrite (Z.mod_small _ 256) in D by lia.
      rewrite D in C. rewrite <- C. rewrite land255. symmetry. apply Z.mod_small.
      split; [apply Z.lor_nonneg; split; [apply Z.land_nonneg; left; lia|lia]|].
      assert (X : Z.lor (Z.land (32 * fr s + fl s) (wnot 32 31)) r < 2 ^ 8); [|exact X].
      assert (inw 8 (Z.lor (Z.land (32 * fr s + fl s) (wnot 32 31)) r)) as [_ ?]; [|assumption].
      apply inw_lor; [lia|apply inw_land_l; [lia|]|]; unfold inw; lia. }
    rewrite N. destruct (Z.eqb_spec (32 * fr s + v mod 32) (32 * fr s + fl s)) as [E|E].
    + exists s. split; [reflexivity|]. assert (v mod 32 = fl s) as -> by lia.
      split; [exact I|reflexivity|reflexivity|symmetry; eapply valid_keep; eassumption|right; auto].
    + pose proof (Z.mod_pos_bound v 32 ltac:(lia)) as Hr.
      destruct (write_word h s (32 * fr s + v mod 32) I ltac:(lia)) as [s' [E' U]].
      destruct (divmod_join (fr s) (v mod 32) Hfr Hr) as [D1 D2]. rewrite D1, D2 in U. exists s'. split; [exact E'|exact U].
  - unfold fuel. change 8%nat with (Datatypes.S 7). rewrite frm_write_unfold. cbv zeta.
    rewrite fcsr_as_ok by apply I. unfold kFrmMask. rewrite land31, land7.
    destruct (divmod_join (fr s) (fl s) Hfr Hfl) as [_ D]. rewrite D.
    pose proof (wrap32_mod v 3 ltac:(lia)) as W3. change (2 ^ 3) with 8 in W3. rewrite W3.
    pose proof (Z.mod_pos_bound v 8 ltac:(lia)) as Hr. rewrite join by assumption.
    change 7%nat with (5 + 2)%nat. rewrite fcsr_write_ok by apply I.
    destruct (write_word h s (32 * (v mod 8) + fl s) I ltac:(lia)) as [s' [E' U]].
    unfold fuel in E'. change 8%nat with (5 + 3)%nat in E'. rewrite fcsr_write_ok in E' by apply I.
    destruct (divmod_join (v mod 8) (fl s) Hr Hfl) as [D1 D2]. rewrite D1, D2 in U.
    exists s'. split; [exact E'|exact U].
Qed.

(** ** Reads and read-modify-writes *)
Lemma csr_read_ok h s c : inv h s -> csr_read s c = read {| frm := fr s; fflags := fl s |} c.
Proof.
  intros I. pose proof (fr_range s (inv_value _ _ I)) as Hfr. pose proof (fl_range s) as Hfl.
  destruct c; unfold csr_read, fflags_as, frm_as, read; cbn [frm fflags]; rewrite fcsr_as_ok by apply I.
  - reflexivity.
  - destruct (divmod_join (fr s) (fl s) Hfr Hfl) as [_ D]. unfold kFflagsMask. rewrite land31. exact D.
  - destruct (divmod_join (fr s) (fl s) Hfr Hfl) as [D _].
    rewrite shiftr5. rewrite (Z.mod_small _ 256) in D by lia. rewrite D. try (unfold kFrmMask; rewrite land7, Z.mod_small by lia). reflexivity.
Qed.

Definition abs (s : fpstate) : fp := {| frm := fr s; fflags := fl s |}.

Lemma ldiff_land64 a v : 0 <= a < 2 ^ 64 -> 0 <= v < 2 ^ 64 -> Z.land a (wnot 64 v) = Z.ldiff a v.
Proof.
  intros Ha Hv. apply Z.bits_inj'. intros n Hn. rewrite Z.land_spec, Z.ldiff_spec.
  destruct (Z_lt_ge_dec n 64).
  - rewrite wnot_testbit by lia. destruct (Z.ltb_spec n 64); [|lia]. reflexivity.
  - rewrite (inw_testbit_high 64 a) by (try lia; exact Ha). reflexivity.
Qed.

Lemma shiftr5_join m f : 0 <= f < 32 -> Z.shiftr (32 * m + f) 5 = m.
Proof.
  intros Hf. rewrite shiftr5, Z.mul_comm, Z.div_add_l by lia. rewrite Z.div_small by lia. lia.
Qed.

Definition good (s : fpstate) (o : op) : Prop :=
  match o with
  | Set_ Fcsr _ | Clear Fcsr _ => False
  | Scalar rm _ => rm = DYN -> valid s = true \/ legal_rm (fr s) = false
  | Vector _ => valid s = true \/ legal_rm (fr s) = false
  | _ => True end.

Definition output (s : fpstate) (o : op) : option (option Z) :=
  match o with
  | Scalar rm _ => Some (if (rm =? 7) && negb (valid s) then None
                         else Some (on_host (if rm =? 7 then rmode s else rm)))
  | Vector _ => Some (if valid s then Some (hrm (hst s)) else None)
  | _ => None end.

Record op_ok (h : host) (s : fpstate) (o : op) (s' : fpstate) : Prop := {
  oo_inv : inv h s';
  oo_valid : valid s' = new_valid s (fr s');
  oo_fr : fr s' = frm (fst (step h (abs s) o));
  oo_fl : good s o -> fl s' = fflags (fst (step h (abs s) o));
  oo_hrm : h = X86 -> hrm (hst s) = on_host (fr s) -> legal_rm (fr s') = true ->
           (forall rm x, o = Scalar rm x -> rm = DYN \/ rm = fr s) -> hrm (hst s') = on_host (fr s') }.

Lemma stored_on_host f : 0 <= f -> legal_rm f = true -> stored_rm X86 f = on_host f.
Proof.
  unfold legal_rm, stored_rm, on_host. intros H0 H. apply Z.leb_le in H.
  destruct (Z.leb_spec f 3), (Z.eqb_spec f 4); try lia.
Qed.

Lemma upd_op h s s' o : inv h s -> upd_ok h s s' (frm (fst (step h (abs s) o))) (fflags (fst (step h (abs s) o))) ->
  op_ok h s o s'.
Proof.
  intros I [U1 U2 U3 U4 U5]. split; try assumption.
  - rewrite U2. exact U4.
  - intros _. exact U3.
  - intros -> E L _. pose proof (fr_range s' (inv_value _ _ U1)). rewrite U2 in *.
    destruct U5 as [->|[-> [-> _]]]; [apply stored_on_host; [lia|assumption]|exact E].
Qed.

Lemma keep_op h s o h' x : inv h s -> hkind h' = h -> hflags h' = Z.lor (fl s) (flags_of_host h x) ->
  frm (fst (step h (abs s) o)) = fr s ->
  (good s o -> fflags (fst (step h (abs s) o)) = Z.lor (fl s) (flags_of_host h x)) ->
  (h = X86 -> hrm (hst s) = on_host (fr s) -> legal_rm (fr s) = true ->
    (forall rm x, o = Scalar rm x -> rm = DYN \/ rm = fr s) -> hrm h' = on_host (fr s)) ->
  op_ok h s o {| value := value s; hst := h'; valid := valid s; rmode := rmode s |}.
Proof.
  intros I K F1 F2 F3 F4. destruct I as [I1 I2 I3 I4 I5]. split.
  - split; cbn [value hst valid rmode]; assumption.
  - cbn [valid]. change (fr {| value := value s; hst := h'; valid := valid s; rmode := rmode s |}) with (fr s).
    symmetry. apply (valid_keep h). split; assumption.
  - symmetry. exact F2.
  - intros G. rewrite (F3 G). exact F1.
  - exact F4.
Qed.

Lemma keep_same h s o : inv h s -> frm (fst (step h (abs s) o)) = fr s ->
  (good s o -> fflags (fst (step h (abs s) o)) = fl s) -> op_ok h s o s.
Proof.
  intros I F2 F3. split; try assumption.
  - symmetry. apply (valid_keep h). exact I.
  - symmetry. exact F2.
  - intros G. symmetry. exact (F3 G).
  - intros _ E _ _. exact E.
Qed.

Lemma lor_mod32 a b : 0 <= a < 32 -> 0 <= b < 32 -> Z.lor a b mod 32 = Z.lor a b.
Proof.
  intros. apply Z.mod_small. assert (inw 5 (Z.lor a b)) as X; [|exact X].
  apply inw_lor; unfold inw; lia.
Qed.

Lemma do_op_ok h s o : inv h s -> wf_op h o ->
  exists s', do_op s o = Some (s', output s o) /\ op_ok h s o s'.
Proof.
  intros I W. pose proof (fr_range s (inv_value _ _ I)) as Hfr. pose proof (fl_range s) as Hfl.
  assert (R : forall c, 0 <= csr_read s c < 2 ^ 64).
  { intros c. rewrite (csr_read_ok h) by exact I. destruct c; cbn [read frm fflags]; lia. }
  assert (RR : forall c, csr_read s c = read (abs s) c) by (intros; apply (csr_read_ok h), I).
  pose proof (inv_value _ _ I) as Hv256.
  assert (Hvs : Z.shiftr (value s) 5 = fr s) by (rewrite shiftr5; reflexivity).
  destruct o as [c v|c v|c v|f|rm x|x]; cbn [wf_op] in W; cbn [do_op output].
  - destruct (csr_write_ok h s c v I ltac:(lia)) as [s' [E U]]. exists s'. rewrite E. split; [reflexivity|].
    apply upd_op; assumption.
  - unfold set_bits.
    assert (P : 0 <= Z.lor (get_uint s c) v).
    { apply Z.lor_nonneg. split; [|lia]. destruct c; cbn [get_uint]; [lia|apply (R Fflags)|apply (R Frm)]. }
    destruct (csr_write_ok h s c (Z.lor (get_uint s c) v) I P) as [s' [E U]]. exists s'. rewrite E. split; [reflexivity|].
    destruct c.
    + assert (EF : frm (fst (step h (abs s) (Set_ Fcsr v))) = Z.lor (value s) v / 32 mod 8).
      { cbn [step fst write frm read abs fflags]. rewrite <- !shiftr5, !Z.shiftr_lor, Hvs, shiftr5_join by lia. reflexivity. }
      cbn [write frm fflags get_uint] in U. destruct U as [U1 U2 U3 U4 U5]. split.
      * exact U1.
      * rewrite U2. exact U4.
      * rewrite U2, EF. reflexivity.
      * intros [].
      * intros -> E0 L _. pose proof (fr_range s' (inv_value _ _ U1)). rewrite U2 in *.
        destruct U5 as [->|[-> [-> _]]]; [apply stored_on_host; [lia|assumption]|exact E0].
    + apply upd_op; [exact I|]. change (get_uint s Fflags) with (csr_read s Fflags) in U. rewrite RR in U. exact U.
    + apply upd_op; [exact I|]. change (get_uint s Frm) with (csr_read s Frm) in U. rewrite RR in U. exact U.
  - unfold clear_bits.
    assert (GU : 0 <= get_uint s c < 2 ^ 64).
    { destruct c; cbn [get_uint]; [lia|apply (R Fflags)|apply (R Frm)]. }
    rewrite ldiff_land64 by (assumption || lia).
    assert (P : 0 <= Z.ldiff (get_uint s c) v) by (apply Z.ldiff_nonneg; left; lia).
    destruct (csr_write_ok h s c (Z.ldiff (get_uint s c) v) I P) as [s' [E U]]. exists s'. rewrite E. split; [reflexivity|].
    destruct c.
    + assert (EF : frm (fst (step h (abs s) (Clear Fcsr v))) = Z.ldiff (value s) v / 32 mod 8).
      { cbn [step fst write frm read abs fflags]. rewrite <- !shiftr5, !Z.shiftr_ldiff, Hvs, shiftr5_join by lia. reflexivity. }
      cbn [write frm fflags get_uint] in U. destruct U as [U1 U2 U3 U4 U5]. split.
      * exact U1.
      * rewrite U2. exact U4.
      * rewrite U2, EF. reflexivity.
      * intros [].
      * intros -> E0 L _. pose proof (fr_range s' (inv_value _ _ U1)). rewrite U2 in *.
        destruct U5 as [->|[-> [-> _]]]; [apply stored_on_host; [lia|assumption]|exact E0].
    + apply upd_op; [exact I|]. change (get_uint s Fflags) with (csr_read s Fflags) in U. rewrite RR in U. exact U.
    + apply upd_op; [exact I|]. change (get_uint s Frm) with (csr_read s Frm) in U. rewrite RR in U. exact U.
  - unfold set_bits. change (get_uint s Fflags) with (csr_read s Fflags). rewrite RR. cbn [read abs fflags].
    destruct (csr_write_ok h s Fflags (Z.lor (fl s) f) I) as [s' [E U]]; [apply Z.lor_nonneg; lia|].
    exists s'. rewrite E. split; [reflexivity|]. apply upd_op; [exact I|].
    cbn [step fst accrue abs frm fflags write] in *. rewrite lor_mod32 in U by assumption. exact U.
  - destruct W as [Wr Wx]. unfold host_scalar.
    destruct (Z.eqb_spec rm 7) as [->|Nr]; cbn [andb].
    + destruct (valid s) eqn:EV; cbn [negb].
      * assert (L : fr s <= 4). { destruct (Z_le_gt_dec (fr s) 4); [assumption|]. rewrite (inv_illegal _ _ I) in EV by lia. discriminate. }
        pose proof (scoped_static (hst s) (rmode s) x (inv_rmode _ _ I)) as S. rewrite (inv_kind _ _ I) in S. specialize (S Wx).
        destruct (scoped (hst s) (Some (rmode s)) x) as [h' u]. destruct S as [S1 [S2 [S3 S4]]].
        eexists. split; [rewrite S1; reflexivity|].
        assert (ST : step h (abs s) (Scalar 7 x) = (accrue (abs s) (flags_of_host h x), Some (Some (on_host (fr s))))).
        { cbn [step]. unfold mode. cbn [Z.eqb DYN Pos.eqb]. unfold legal_rm. cbn [frm abs].
          destruct (Z.leb_spec (fr s) 4); [reflexivity|lia]. }
        rewrite <- EV. eapply keep_op with (x := x); try assumption.
        -- rewrite ST. reflexivity.
        -- rewrite ST. reflexivity.
        -- intros -> _ _ _. rewrite S4. f_equal. apply (inv_legal _ _ I L).
      * eexists. split; [reflexivity|]. 
        assert (ST : fr s <= 4 \/ 4 < fr s /\ step h (abs s) (Scalar 7 x) = (abs s, Some None)).
        { destruct (Z_le_gt_dec (fr s) 4); [left; assumption|right; split; [lia|]].
          cbn [step]. unfold mode. cbn [Z.eqb DYN Pos.eqb]. unfold legal_rm. cbn [frm abs].
          destruct (Z.leb_spec (fr s) 4); [lia|reflexivity]. }
        apply keep_same; [exact I| |].
        -- cbn [step]. destruct (mode _ _); reflexivity.
        -- cbn [good]. intros G. destruct (G eq_refl) as [G'|G']; [congruence|].
           unfold legal_rm in G'. apply Z.leb_gt in G'. destruct ST as [?|[_ ST]]; [lia|]. rewrite ST. reflexivity.
    + assert (Hm : 0 <= rm <= 4) by (destruct Wr as [?|Wr]; [assumption|unfold DYN in Wr; lia]).
      pose proof (scoped_static (hst s) rm x Hm) as S. rewrite (inv_kind _ _ I) in S. specialize (S Wx).
      destruct (scoped (hst s) (Some rm) x) as [h' u]. destruct S as [S1 [S2 [S3 S4]]].
      eexists. split; [rewrite S1; reflexivity|].
      assert (ST : step h (abs s) (Scalar rm x) = (accrue (abs s) (flags_of_host h x), Some (Some (on_host rm)))).
      { cbn [step]. unfold mode, DYN. destruct (Z.eqb_spec rm 7); [congruence|reflexivity]. }
      eapply keep_op with (x := x); try assumption.
      * rewrite ST. reflexivity.
      * rewrite ST. reflexivity.
      * intros -> _ _ A. rewrite S4. f_equal. destruct (A rm x eq_refl) as [->| ->]; [exfalso; apply Nr; reflexivity|reflexivity].
  - unfold host_vector. destruct (valid s) eqn:EV; cbn [negb].
    + assert (L : fr s <= 4). { destruct (Z_le_gt_dec (fr s) 4); [assumption|]. rewrite (inv_illegal _ _ I) in EV by lia. discriminate. }
      pose proof (scoped_none (hst s) x) as S. rewrite (inv_kind _ _ I) in S. specialize (S W).
      destruct (scoped (hst s) None x) as [h' u]. destruct S as [S1 [S2 [S3 S4]]].
      eexists. split; [rewrite S1; reflexivity|].
      assert (ST : step h (abs s) (Vector x) = (accrue (abs s) (flags_of_host h x), Some (Some (on_host (fr s))))).
      { cbn [step]. unfold mode. cbn [Z.eqb DYN Pos.eqb]. unfold legal_rm. cbn [frm abs].
        destruct (Z.leb_spec (fr s) 4); [reflexivity|lia]. }
      rewrite <- EV. eapply keep_op with (x := x); try assumption.
      * rewrite ST. reflexivity.
      * rewrite ST. reflexivity.
      * intros -> E0 _ _. rewrite S4. exact E0.
    + eexists. split; [reflexivity|]. apply keep_same; [exact I| |].
      * cbn [step]. destruct (mode _ _); reflexivity.
      * cbn [good]. intros [G'|G']; [congruence|]. cbn [step]. unfold mode. cbn [Z.eqb DYN Pos.eqb frm abs].
        rewrite G'. reflexivity.
Qed.

(** ** Histories *)
Lemma do_run_app s l1 l2 : do_run s (l1 ++ l2) =
  match do_run s l1 with
  | Some (s1, r1) => match do_run s1 l2 with Some (s2, r2) => Some (s2, r1 ++ r2) | None => None end
  | None => None end.
Proof.
  revert s. induction l1 as [|o l1 IH]; intros s; cbn [do_run app].
  - destruct (do_run s l2) as [[? ?]|]; reflexivity.
  - destruct (do_op s o) as [[s1 r]|]; [|reflexivity]. rewrite IH.
    destruct (do_run s1 l1) as [[s2 r2]|]; [|reflexivity]. destruct (do_run s2 l2) as [[? ?]|]; reflexivity.
Qed.

Lemma run_app h s l1 l2 : run h s (l1 ++ l2) =
  (fst (run h (fst (run h s l1)) l2), snd (run h s l1) ++ snd (run h (fst (run h s l1)) l2)).
Proof.
  revert s. induction l1 as [|o l1 IH]; intros s; cbn [run app fst snd].
  - destruct (run h s l2); reflexivity.
  - destruct (step h s o) as [s1 r]. rewrite IH. destruct (run h s1 l1) as [s2 r2]. cbn [fst snd].
    destruct (run h s2 l2); reflexivity.
Qed.

Lemma run_snoc h s l o : fst (run h s (l ++ [o])) = fst (step h (fst (run h s l)) o) /\
  snd (run h s (l ++ [o])) = snd (run h s l) ++ [snd (step h (fst (run h s l)) o)].
Proof.
  rewrite run_app. cbn [run fst snd]. destruct (step h (fst (run h s l)) o). split; reflexivity.
Qed.

(** frm after a step depends on frm alone. *)
Lemma step_frm h s1 s2 o : frm s1 = frm s2 -> 0 <= fflags s1 < 32 -> 0 <= fflags s2 < 32 ->
  frm (fst (step h s1 o)) = frm (fst (step h s2 o)).
Proof.
  intros E F1 F2. destruct o as [c v|c v|c v|f|rm x|x]; cbn [step].
  - destruct c; cbn [fst write frm]; auto.
  - destruct c; cbn [fst write frm read]; auto.
    + rewrite <- !shiftr5, !Z.shiftr_lor, !shiftr5_join, E by assumption. reflexivity.
    + rewrite E. reflexivity.
  - destruct c; cbn [fst write frm read]; auto.
    + rewrite <- !shiftr5, !Z.shiftr_ldiff, !shiftr5_join, E by assumption. reflexivity.
    + rewrite E. reflexivity.
  - exact E.
  - destruct (mode s1 rm), (mode s2 rm); exact E.
  - destruct (mode s1 DYN), (mode s2 DYN); exact E.
Qed.

Lemma step_fflags_range h s o : wf_op h o -> 0 <= fflags s < 32 -> 0 <= fflags (fst (step h s o)) < 32.
Proof.
  intros W F. assert (M : forall v, 0 <= v mod 32 < 32) by (intros; apply Z.mod_pos_bound; lia).
  assert (LO : forall f, 0 <= f < 32 -> 0 <= Z.lor (fflags s) f < 32).
  { intros f Hf. rewrite <- lor_mod32 by assumption. apply M. }
  destruct o as [c v|c v|c v|f|rm x|x]; cbn [step].
  - destruct c; cbn [fst write fflags]; auto.
  - destruct c; cbn [fst write fflags]; auto.
  - destruct c; cbn [fst write fflags]; auto.
  - apply LO, W.
  - destruct (mode s rm); [apply LO, flags_of_host_range|exact F].
  - destruct (mode s DYN); [apply LO, flags_of_host_range|exact F].
Qed.

Lemma run_fflags_range h l : Forall (wf_op h) l -> 0 <= fflags (fst (run h fp0 l)) < 32.
Proof.
  induction l as [|o l IH] using rev_ind; intros W; [cbn; lia|].
  apply Forall_app in W. destruct W as [W Wo]. inversion_clear Wo.
  rewrite (proj1 (run_snoc h fp0 l o)). apply step_fflags_range; auto.
Qed.

Definition host_round_ok (h : host) (l : list op) : Prop := h = X86 /\ static_agrees h l.

Record hist_ok (h : host) (l : list op) (s : fpstate) (r : list (option (option Z))) : Prop := {
  ho_run : do_run (init h) l = Some (s, r);
  ho_inv : inv h s;
  ho_frm : fr s = frm (fst (run h fp0 l));
  ho_fl : no_rmw_fcsr l -> no_dynamic_after_illegal h l -> fl s = fflags (fst (run h fp0 l));
  ho_valid : legal_throughout h l -> valid s = true;
  ho_hrm : host_round_ok h l -> legal_throughout h l -> hrm (hst s) = on_host (fr s);
  ho_out : legal_throughout h l -> host_round_ok h l \/ (forall x, ~ In (Vector x) l) -> r = snd (run h fp0 l) }.

Lemma legal_prefix h l o : legal_throughout h (l ++ [o]) -> legal_throughout h l.
Proof. intros L l1 l2 E. apply (L l1 (l2 ++ [o])). rewrite E, app_assoc. reflexivity. Qed.
Lemma legal_last h l : legal_throughout h l -> legal_rm (frm (fst (run h fp0 l))) = true.
Proof. intros L. apply (L l []). rewrite app_nil_r. reflexivity. Qed.
Lemma static_prefix h l o : static_agrees h (l ++ [o]) -> static_agrees h l.
Proof. intros L l1 rm x l2 E. apply (L l1 rm x (l2 ++ [o])). rewrite E, <- app_assoc. reflexivity. Qed.
Lemma rmw_prefix l o : no_rmw_fcsr (l ++ [o]) -> no_rmw_fcsr l.
Proof. intros L v. destruct (L v) as [A B]. split; intro; [apply A|apply B]; apply in_or_app; left; assumption. Qed.
Lemma dyn_prefix h l o : no_dynamic_after_illegal h (l ++ [o]) -> no_dynamic_after_illegal h l.
Proof.
  intros L l1 l2 E Hl x. destruct (L l1 (l2 ++ [o]) ltac:(rewrite E, app_assoc; reflexivity) Hl x) as [A B].
  split; intro; [apply A|apply B]; apply in_or_app; left; assumption.
Qed.
Lemma dyn_legal h l o x : o = Scalar DYN x \/ o = Vector x -> no_dynamic_after_illegal h (l ++ [o]) -> legal_throughout h l.
Proof.
  intros Ho L l1 l2 E. destruct (legal_rm (frm (fst (run h fp0 l1)))) eqn:EL; [reflexivity|exfalso].
  destruct (L l1 (l2 ++ [o]) ltac:(rewrite E, app_assoc; reflexivity) EL x) as [A B].
  destruct Ho as [->| ->]; [apply A|apply B]; apply in_or_app; right; left; reflexivity.
Qed.

Lemma history_ok h l : Forall (wf_op h) l -> exists s r, hist_ok h l s r.
Proof.
  induction l as [|o l IH] using rev_ind; intros W.
  - exists (init h), []. split; try reflexivity; try (intros; destruct h; reflexivity).
    apply inv_init.
  - apply Forall_app in W. destruct W as [W Wo]. assert (Wo' : wf_op h o) by (inversion_clear Wo; assumption). clear Wo.
    destruct (IH W) as [s [r H]]. destruct H as [H1 H2 H3 H4 H5 H6 H7].
    destruct (do_op_ok h s o H2 Wo') as [s' [D O]]. destruct O as [O1 O2 O3 O4 O5].
    destruct (run_snoc h fp0 l o) as [RS1 RS2].
    pose proof (run_fflags_range h l W) as RF.
    assert (FE : fr s' = frm (fst (step h (fst (run h fp0 l)) o))).
    { rewrite O3. apply step_frm; [exact H3|apply fl_range|exact RF]. }
    exists s', (r ++ [output s o]). split.
    + rewrite do_run_app, H1. cbn [do_run]. rewrite D. reflexivity.
    + exact O1.
    + rewrite RS1. exact FE.
    + intros N1 N2. rewrite RS1.
      assert (EA : abs s = fst (run h fp0 l)).
      { unfold abs. rewrite H3, H4 by (eapply rmw_prefix || eapply dyn_prefix; eassumption).
        destruct (fst (run h fp0 l)); reflexivity. }
      rewrite <- EA. apply O4. destruct o as [c v|c v|c v|f|rm x|x]; cbn [good]; try exact Logic.I.
      * destruct c; try exact Logic.I. destruct (N1 v) as [A _]. apply A, in_or_app. right. left. reflexivity.
      * destruct c; try exact Logic.I. destruct (N1 v) as [_ A]. apply A, in_or_app. right. left. reflexivity.
      * intros ->. left. apply H5. eapply dyn_legal; [left; reflexivity|exact N2].
      * left. apply H5. eapply dyn_legal; [right; reflexivity|exact N2].
    + intros L. pose proof (legal_last _ _ L) as LL. rewrite RS1, <- FE in LL.
      rewrite O2. unfold new_valid. rewrite LL. destruct (rmode s =? fr s'); [|reflexivity].
      apply H5. eapply legal_prefix, L.
    + intros [-> SA] L. pose proof (legal_last _ _ L) as LL. rewrite RS1, <- FE in LL.
      apply O5; [reflexivity| |exact LL|].
      * apply H6; [split; [reflexivity|]; eapply static_prefix, SA|eapply legal_prefix, L].
      * intros rm x ->. destruct (SA l rm x [] eq_refl) as [?| ->]; [left; assumption|right; symmetry; exact H3].
    + intros L HO. rewrite RS2. f_equal.
      * apply H7; [eapply legal_prefix, L|]. destruct HO as [[E SA]|NV]; [left; split; [exact E|eapply static_prefix, SA]|].
        right. intros x Hx. apply (NV x), in_or_app. left. exact Hx.
      * f_equal. pose proof (legal_prefix _ _ _ L) as LP. pose proof (legal_last _ _ LP) as LL.
        specialize (H5 LP). rewrite <- H3 in LL.
        assert (RM : rmode s = fr s). { apply (inv_legal _ _ H2). unfold legal_rm in LL. apply Z.leb_le in LL. exact LL. }
        destruct o as [c v|c v|c v|f|rm x|x]; cbn [output step snd]; try reflexivity.
        -- unfold mode, DYN. rewrite H5, RM. rewrite <- H3, LL. destruct (rm =? 7); reflexivity.
        -- unfold mode. cbn [Z.eqb DYN Pos.eqb]. rewrite <- H3, LL, H5. cbn [snd].
           destruct HO as [[E SA]|NV]; [|exfalso; apply (NV x), in_or_app; right; left; reflexivity].
           rewrite H6; [reflexivity|split; [exact E|eapply static_prefix, SA]|exact LP].
Qed.
