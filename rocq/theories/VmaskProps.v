(** C38, C39, C44, C45, C64, C65, C66: mask-writing, mask-reading, reduction and move instructions. *)
From Coq Require Import ZArith Bool List Lia.
From Verif Require Import Bits Memory VelemSpec VmaskSpec VcfgModel VelemModel VelemProofs4 VelemProps
  VmaskModel VmaskProofs1 VmaskProofs2 VmaskProofs3 VmaskProofs4.
Import ListNotations.
Local Open Scope Z_scope.

(** C66.  Integer compares: bit i of vd for every active body element is the comparison of the operand
    elements before the instruction; all other bits of vd and all other registers are unchanged; vstart
    becomes 0.  vd may be any register, also a source or v0. *)
Theorem vector_compare : forall st o vd vs2 s1 vm,
  let c := cfg st in
  config (vlenb c) (sew c) (lmul8 c) (vl c) -> group (sew c) (lmul8 c) (sew c) vs2 ->
  match s1 with Vec r => group (sew c) (lmul8 c) (sew c) r | Scalar _ => True end ->
  byte_mem (regs st) -> vexc c = false -> 0 <= vstart c ->
  exists st', exec_cmp st o vd vs2 s1 vm = Some st' /\ cfg st' = set_vstart c 0 /\
    mask_update (vlenb c) vd (fun i => vstart c <= i < vl c /\ mask_of (vlenb c) (regs st) vm i = true)
      (fun i => cmp_spec o (8 * sew c) (elem (vlenb c) (regs st) vs2 (sew c) i) (src1_elem (vlenb c) (regs st) (sew c) s1 i))
      (regs st) (regs st').
Proof.
  intros st o vd vs2 s1 vm c HC H2 H1 Hb Hx Hs. unfold exec_cmp. fold c. rewrite (sew_in _ _ _ _ HC).
  destruct (mask_binary_spec true st (fun x y m => if m then cmp_op o (8 * sew c) x y else false) vd vs2 s1 vm true HC H2 H1 Hb Hx Hs (fun _ => eq_refl))
    as (st' & E & Hc & M1 & M2 & M3 & M4).
  exists st'. split; [exact E|]. split; [exact Hc|]. split; [|split; [|split; [exact M3|exact M4]]].
  - intros i Hi (Hr & Hm). fold c in M1. rewrite M1 by (first [assumption | split; [lia|intros _; exact Hm]]). cbn [andb]. rewrite Hm.
    destruct o; reflexivity.
  - intros i Hi Hn. apply M2; [exact Hi|]. intros (Hr & Hm). apply Hn. split; [exact Hr|exact (Hm eq_refl)].
Qed.
Print Assumptions vector_compare.
(** vmslt.vv v3, v4, v6, v0.t at SEW=16, LMUL=2, vl=13, vstart=3. *)
Example vector_compare_case : config 16 2 16 13 /\ group 2 16 2 4 /\ group 2 16 2 6.
Proof. split; [apply demo_config; cbn; lia|]. split; unfold group, nregs, emul8; cbn; lia. Qed.
Example vector_compare_value :
  option_map (fun s => map (vbit 16 (regs s) 3) (zrange 16)) (exec_cmp (demo 2 16 13 3 0 false false) Mlt 3 4 (Vec 6) false)
  = Some [true; false; true; false; false; true; false; true; false; false; false; false; true; true; false; true].
Proof. vm_compute. reflexivity. Qed.

(** C38.  vmadc and vmsbc: for every body element, bit i of vd is the carry or borrow out of the SEW-bit
    addition or subtraction of the operand elements and the v0 carry-in (no carry-in when vm = 1).
    Missing: vmadc at SEW=64 when the upper 56 bits of the operands add up to 2^56 - 1 (refuted
    below). *)
Theorem carry_out_partial : forall st o vd vs2 s1 vm,
  let c := cfg st in
  let x := elem (vlenb c) (regs st) vs2 (sew c) in
  let y := src1_elem (vlenb c) (regs st) (sew c) s1 in
  config (vlenb c) (sew c) (lmul8 c) (vl c) -> group (sew c) (lmul8 c) (sew c) vs2 ->
  match s1 with Vec r => group (sew c) (lmul8 c) (sew c) r | Scalar _ => True end ->
  byte_mem (regs st) -> vexc c = false -> 0 <= vstart c ->
  (o = Madc -> sew c = 8 -> forall i, vstart c <= i < vl c -> x i / 256 + y i / 256 <> 2 ^ 56 - 1) ->
  exists st', exec_carry st o vd vs2 s1 vm = Some st' /\ cfg st' = set_vstart c 0 /\
    mask_update (vlenb c) vd (fun i => vstart c <= i < vl c)
      (fun i => carry_spec o (8 * sew c) (negb vm && vbit (vlenb c) (regs st) 0 i) (x i) (y i))
      (regs st) (regs st').
Proof.
  intros st o vd vs2 s1 vm c x y HC H2 H1 Hb Hx Hs H64. unfold exec_carry. fold c. rewrite (sew_in _ _ _ _ HC).
  assert (false = true -> negb vm = true) as Hsk by discriminate.
  destruct (mask_binary_spec false st (carry_op o (sew c)) vd vs2 s1 vm (negb vm) HC H2 H1 Hb Hx Hs Hsk)
    as (st' & E & Hc & M1 & M2 & M3 & M4). fold c x y in M1.
  exists st'. split; [exact E|]. split; [exact Hc|]. split; [|split; [|split; [exact M3|exact M4]]].
  - intros i Hi Hr. rewrite M1 by (first [assumption | split; [exact Hr|discriminate]]).
    replace (negb vm && mask_of (vlenb c) (regs st) vm i) with (negb vm && vbit (vlenb c) (regs st) 0 i)
      by (unfold mask_of; destruct vm; reflexivity).
    pose proof (sew_ge1 _ _ _ _ HC) as Hs1.
    assert (inw (8 * sew c) (x i)) as Hxi by (apply elem_inw; [exact Hb|lia]).
    assert (inw (8 * sew c) (y i)) as Hyi.
    { unfold y, src1_elem. destruct s1; [apply elem_inw; [exact Hb|lia]|apply wrap_range; lia]. }
    destruct o; cbn [carry_spec]; [|apply msbc_ok].
    destruct (Z.eq_dec (sew c) 8) as [E8|E8].
    + specialize (H64 eq_refl E8 i Hr). rewrite E8 in *. apply madc64; assumption.
    + apply madc_small; [|exact Hxi|exact Hyi]. destruct HC as (_ & Hse & _). clear - Hse E8.
      destruct Hse as [E|[E|[E|[E|[]]]]]; rewrite <- E in *; cbn; auto.
  - intros i Hi Hn. apply M2; [exact Hi|]. intros (Hr & _). exact (Hn Hr).
Qed.
Print Assumptions carry_out_partial.
(** vmsbc.vxm at SEW=8, LMUL=4, vl=50, vstart=2. *)
Example carry_out_case : config 16 1 32 50 /\ group 1 32 1 8.
Proof. split; [apply demo_config; cbn; lia|]. unfold group, nregs, emul8; cbn; lia. Qed.
Example carry_out_value :
  option_map (fun s => map (vbit 16 (regs s) 3) (zrange 16)) (exec_carry (demo 1 32 50 2 0 false false) Msbc 3 8 (Scalar 100) false)
  = Some [true; false; false; false; false; true; true; true; true; true; true; true; true; true; true; true].
Proof. vm_compute. reflexivity. Qed.

(** Model only, for the examples: registers whose 64-bit words are given by a list. *)
Definition words (l : list Z) : mem := fun a => nth (Z.to_nat (a / 8)) l 0 / 2 ^ (8 * (a mod 8)) mod 256.
Definition demo_w (l : list Z) (sew lmul8 vl start : Z) : vstate :=
  {| regs := words l; cfg := cfg (demo sew lmul8 vl start 0 false false) |}.
Lemma words_byte l : byte_mem (words l). Proof. intros a. apply Z.mod_pos_bound. lia. Qed.

(** C38 is false at SEW=64: (2^64 - 1) + 1 reports no carry, (2^64 - 512 + 256) + 255 with carry-in 1
    reports one. *)
Theorem carry_out_refuted :
  (exists st st', config 16 (sew (cfg st)) (lmul8 (cfg st)) (vl (cfg st)) /\ byte_mem (regs st) /\ vexc (cfg st) = false /\
     vstart (cfg st) = 0 /\ vl (cfg st) = 1 /\ sew (cfg st) = 8 /\
     exec_carry st Madc 3 1 (Vec 2) true = Some st' /\
     elem 16 (regs st) 1 8 0 = 2 ^ 64 - 1 /\ elem 16 (regs st) 2 8 0 = 1 /\ vbit 16 (regs st') 3 0 = false) /\
  (exists st st', config 16 (sew (cfg st)) (lmul8 (cfg st)) (vl (cfg st)) /\ byte_mem (regs st) /\ vexc (cfg st) = false /\
     vstart (cfg st) = 0 /\ vl (cfg st) = 1 /\ sew (cfg st) = 8 /\
     exec_carry st Madc 3 1 (Vec 2) false = Some st' /\ vbit 16 (regs st) 0 0 = true /\
     elem 16 (regs st) 1 8 0 + elem 16 (regs st) 2 8 0 + 1 < 2 ^ 64 /\ vbit 16 (regs st') 3 0 = true).
Proof.
  split.
  - exists (demo_w [0; 0; 2 ^ 64 - 1; 0; 1; 0; 0; 0] 8 8 1 0). eexists.
    split; [apply demo_config; cbn; lia|]. split; [apply words_byte|]. repeat (split; [reflexivity|]). vm_compute. reflexivity.
  - exists (demo_w [1; 0; 2 ^ 64 - 511; 0; 256; 0; 0; 0] 8 8 1 0). eexists.
    split; [apply demo_config; cbn; lia|]. split; [apply words_byte|]. do 6 (split; [reflexivity|]).
    split; [vm_compute; reflexivity|]. vm_compute. reflexivity.
Qed.
Print Assumptions carry_out_refuted.

(** C39.  Mask-register logicals, 0 <= vstart < vl: every body bit is the bitwise function of the source
    bits; all other registers are unchanged; tail bits are unchanged or hold the computed value (both
    allowed for masks); bits before vstart are unchanged provided vstart is a multiple of 8 or lies
    in an earlier byte than the last element.  Missing: that last proviso and vl <= vstart. *)
Theorem mask_logical_partial : forall st o vd vs2 vs1,
  let c := cfg st in
  let new i := logic_spec o (vbit (vlenb c) (regs st) vs2 i) (vbit (vlenb c) (regs st) vs1 i) in
  config (vlenb c) (sew c) (lmul8 c) (vl c) -> byte_mem (regs st) -> vexc c = false -> 0 <= vstart c < vl c ->
  exists st', exec_logic st o vd vs2 vs1 = Some st' /\ cfg st' = set_vstart c 0 /\
    (forall a, ~ (vd * vlenb c <= a < (vd + 1) * vlenb c) -> regs st' a = regs st a) /\
    (forall i, vstart c <= i < vl c -> vbit (vlenb c) (regs st') vd i = new i) /\
    (forall i, 0 <= i < vstart c -> vstart c mod 8 = 0 \/ vstart c / 8 < (vl c - 1) / 8 ->
       vbit (vlenb c) (regs st') vd i = vbit (vlenb c) (regs st) vd i) /\
    (forall i, vl c <= i < 8 * vlenb c ->
       vbit (vlenb c) (regs st') vd i = vbit (vlenb c) (regs st) vd i \/ vbit (vlenb c) (regs st') vd i = new i).
Proof.
  intros st o vd vs2 vs1 c new HC Hb Hx Hs. destruct (exec_logic_spec st o vd vs2 vs1 HC Hb Hx Hs) as (st' & H1 & H2 & _ & H3).
  exists st'. split; [exact H1|]. split; [exact H2|]. exact H3.
Qed.
Print Assumptions mask_logical_partial.
(** vmorn.mm v3, v1, v2 at vl=21, vstart=5. *)
Example mask_logical_case :
  config 16 1 16 21 /\ 0 <= 5 < 21 /\ 5 / 8 < (21 - 1) / 8 /\
  option_map (fun s => map (vbit 16 (regs s) 3) (zrange 24)) (exec_logic (demo 1 16 21 5 0 false false) Lorn 3 1 2) = Some [true; false; true; true; false; false; true; true; true; true; true; true; true; true; true; true; true; true; true; true; true; true; false; true].
Proof. split; [apply demo_config; cbn; lia|]. split; [lia|]. split; [cbn; lia|]. vm_compute. reflexivity. Qed.

(** C39 is false otherwise: with vl = 0 the first byte of vd is overwritten; with vstart >= vl the byte of
    vstart is; with vstart in the last byte the bits before vstart are. *)
Theorem mask_logical_refuted :
  (exists st st', config 16 (sew (cfg st)) (lmul8 (cfg st)) (vl (cfg st)) /\ vexc (cfg st) = false /\ vl (cfg st) = 0 /\ vstart (cfg st) = 0 /\
     exec_logic st Lxor 3 1 2 = Some st' /\ vbit 16 (regs st') 3 0 <> vbit 16 (regs st) 3 0) /\
  (exists st st', config 16 (sew (cfg st)) (lmul8 (cfg st)) (vl (cfg st)) /\ vexc (cfg st) = false /\ vl (cfg st) = 4 /\ vstart (cfg st) = 8 /\
     exec_logic st Lxor 3 1 2 = Some st' /\ vbit 16 (regs st') 3 11 <> vbit 16 (regs st) 3 11) /\
  (exists st st', config 16 (sew (cfg st)) (lmul8 (cfg st)) (vl (cfg st)) /\ vexc (cfg st) = false /\ vl (cfg st) = 6 /\ vstart (cfg st) = 3 /\
     exec_logic st Lxor 3 1 2 = Some st' /\ vbit 16 (regs st') 3 0 <> vbit 16 (regs st) 3 0).
Proof.
  split; [|split].
  - exists (demo_w [0; 0; 0; 0; 65535; 0; 0; 0] 1 8 0 0). eexists. split; [apply demo_config; cbn; lia|].
    do 4 (split; [reflexivity|]). vm_compute. discriminate.
  - exists (demo_w [0; 0; 0; 0; 65535; 0; 0; 0] 1 8 4 8). eexists. split; [apply demo_config; cbn; lia|].
    do 4 (split; [reflexivity|]). vm_compute. discriminate.
  - exists (demo_w [0; 0; 0; 0; 65535; 0; 0; 0] 1 8 6 3). eexists. split; [apply demo_config; cbn; lia|].
    do 4 (split; [reflexivity|]). vm_compute. discriminate.
Qed.
Print Assumptions mask_logical_refuted.

(** C45.  vcpop.m and vfirst.m: the number of active set bits, and the index of the first one (all ones if
    there is none), for XLEN 32 and 64; the vector state is unchanged.  A non-zero vstart raises the
    exception. *)
Theorem vcpop_count : forall st xlen vs2 vm, In xlen [32; 64] ->
  let c := cfg st in
  config (vlenb c) (sew c) (lmul8 c) (vl c) ->
  exec_cpop st xlen vs2 vm =
    if vstart c =? 0 then (st, Some (Z.of_nat (length (hits (vlenb c) (regs st) vs2 vm (vl c))))) else (raise st, None).
Proof.
  intros st xlen vs2 vm Hx c HC. destruct (Z.eqb_spec (vstart c) 0) as [E|E].
  - apply exec_cpop_spec; [exact Hx| |exact E]. pose proof (vl_bits _ _ _ _ HC) as (Hv & _). destruct HC as ((k & Hk & Ek) & _).
    assert (2 ^ k <= 2 ^ 13) by (apply Z.pow_le_mono_r; lia). fold c. lia.
  - unfold exec_cpop. fold c. destruct (Z.eqb_spec (vstart c) 0); [contradiction|reflexivity].
Qed.
Print Assumptions vcpop_count.
Example vcpop_case : snd (exec_cpop (demo 1 32 50 0 0 false false) 32 4 false) = Some 19. Proof. vm_compute. reflexivity. Qed.

Theorem vfirst_index : forall st xlen vs2 vm, In xlen [32; 64] ->
  let c := cfg st in
  let hit i := mask_of (vlenb c) (regs st) vm i && vbit (vlenb c) (regs st) vs2 i in
  (vstart c <> 0 -> exec_first st xlen vs2 vm = (raise st, None)) /\
  (0 <= vl c -> vstart c = 0 ->
  (forall i, 0 <= i < vl c -> vl c <= 65536 -> hit i = true -> (forall j, 0 <= j < i -> hit j = false) ->
     exec_first st xlen vs2 vm = (st, Some i)) /\
  ((forall j, 0 <= j < vl c -> hit j = false) -> exec_first st xlen vs2 vm = (st, Some (2 ^ xlen - 1)))).
Proof.
  intros st xlen vs2 vm Hx c h. split.
  { intros E. unfold exec_first. fold c. destruct (Z.eqb_spec (vstart c) 0); [contradiction|reflexivity]. }
  intros Hv Hs. rewrite (exec_first_spec st xlen vs2 vm Hx Hv Hs). fold c. split.
  - intros i Hi Hv2 Hh Hn. rewrite (hits_hd _ _ _ _ _ i Hi Hh Hn). rewrite wrap_id; [reflexivity|].
    unfold inw. destruct Hx as [<-|[<-|[]]]; lia.
  - intros Hn. rewrite (hits_nil _ _ _ _ _ Hn). destruct Hx as [<-|[<-|[]]]; reflexivity.
Qed.
Print Assumptions vfirst_index.
Example vfirst_case : snd (exec_first (demo_w [0xfef; 0; 0x130; 0] 1 8 12 0) 64 1 false) = Some 5. Proof. vm_compute. reflexivity. Qed.
Example vfirst_none : snd (exec_first (demo_w [0; 0; 0; 0] 1 8 16 0) 32 1 true) = Some 0xffffffff. Proof. vm_compute. reflexivity. Qed.

(** C45.  vmsif.m, vmsof.m, and vmsbf.m when unmasked: active body bits get the set-before/including/only
    first pattern of the active source bits; everything else is unchanged.  For masked vmsbf.m the
    active bits, the masked-off bits up to the first hit, the tail and the other registers are as
    specified.  Missing: masked-off bits of vmsbf.m after the first hit (refuted below). *)
Theorem mask_scan_partial : forall st o vd vs2 vm,
  let c := cfg st in
  let rf' := regs (exec_scan st o vd vs2 vm) in
  let active i := 0 <= i < vl c /\ mask_of (vlenb c) (regs st) vm i = true in
  (vstart c <> 0 -> exec_scan st o vd vs2 vm = raise st) /\
  (byte_mem (regs st) -> vstart c = 0 -> 0 <= vl c ->
  cfg (exec_scan st o vd vs2 vm) = set_vstart c 0 /\
  (o <> Msbf \/ vm = true ->
    mask_update (vlenb c) vd active (scan_spec o (vlenb c) (regs st) vs2 vm) (regs st) rf') /\
  (forall i, 0 <= i < 8 * vlenb c -> active i -> vbit (vlenb c) rf' vd i = scan_spec o (vlenb c) (regs st) vs2 vm i) /\
  (forall i, 0 <= i < 8 * vlenb c -> ~ active i -> hits (vlenb c) (regs st) vs2 vm i = [] \/ vl c <= i ->
     vbit (vlenb c) rf' vd i = vbit (vlenb c) (regs st) vd i) /\
  (forall a, ~ (vd * vlenb c <= a < (vd + 1) * vlenb c) -> rf' a = regs st a)).
Proof.
  intros st o vd vs2 vm c rf' act. split.
  { intros E. unfold exec_scan. fold c. destruct (Z.eqb_spec (vstart c) 0); [contradiction|reflexivity]. }
  intros Hb Hs Hv.
  destruct (exec_scan_spec st o vd vs2 vm Hb Hs Hv) as (HC & M1 & M2 & M3 & M4). fold c rf' in M1, M2, M3, M4.
  split; [exact HC|]. split; [|split; [|split; [|exact M3]]].
  - intros Ho. split; [|split; [|split; [exact M3|exact M4]]].
    + intros i Hi (Hr & Hm). apply M1; [exact Hi|]. split; [exact Hr|left; exact Hm].
    + intros i Hi Hn. apply M2; [exact Hi|]. intros (Hr & [Hm|(He & _)]).
      * apply Hn. split; assumption.
      * destruct Ho as [Ho|Ho]; [contradiction|]. apply Hn. split; [exact Hr|]. rewrite Ho. reflexivity.
  - intros i Hi (Hr & Hm). apply M1; [exact Hi|]. split; [exact Hr|left; exact Hm].
  - intros i Hi Hn Hh. apply M2; [exact Hi|]. intros (Hr & [Hm|(_ & He)]).
    + apply Hn. split; assumption.
    + destruct Hh as [Hh|Hh]; [contradiction|]. clear - Hh Hr; lia.
Qed.
Print Assumptions mask_scan_partial.
(** v0 = 0xbef, vs2 = 0x130 and vd = 0x550 with vl = 12: the first active hit is bit 5. *)
Example mask_scan_case :
  map (fun o => map (vbit 16 (regs (exec_scan (demo_w [0xbef; 0; 0x130; 0; 0; 0; 0x550; 0] 1 8 12 0) o 3 1 false)) 3) (zrange 12)) [Msbf; Msif; Msof]
  = [[true; true; true; true; true; false; false; false; false; false; false; false]; [true; true; true; true; true; true; false; false; false; false; true; false]; [false; false; false; false; true; true; false; false; false; false; true; false]].
Proof. vm_compute. reflexivity. Qed.
(** C45 is false for masked vmsbf.m: with v0 = 1, vs2 = 1, vd = 2 and vl = 2 the masked-off bit 1 of vd is
    cleared. *)
Theorem mask_scan_refuted : exists st vd vs2 i,
  byte_mem (regs st) /\ vstart (cfg st) = 0 /\ 0 <= i < vl (cfg st) /\ mask_of 16 (regs st) false i = false /\
  vbit 16 (regs (exec_scan st Msbf vd vs2 false)) vd i <> vbit 16 (regs st) vd i.
Proof.
  exists (demo_w [1; 0; 1; 0; 2; 0] 1 8 2 0), 2, 1, 1. split; [apply words_byte|]. split; [reflexivity|]. split; [cbn; lia|].
  split; [reflexivity|]. vm_compute. discriminate.
Qed.
Print Assumptions mask_scan_refuted.

(** C45.  viota.m with vstart = 0: active element j of vd is the number of active set source bits below j;
    everything else is unchanged.  Missing: vstart <> 0 must raise (refuted below). *)
Theorem viota_partial : forall st vd vs2 vm,
  let c := cfg st in
  let st' := exec_iota st vd vs2 vm in
  config (vlenb c) (sew c) (lmul8 c) (vl c) -> group (sew c) (lmul8 c) (sew c) vd -> vexc c = false -> vstart c = 0 ->
  (vs2 < vd \/ vd + nregs (sew c) (lmul8 c) (sew c) <= vs2) ->
  cfg st' = set_vstart c 0 /\
  (forall j, 0 <= j < vl c -> mask_of (vlenb c) (regs st) vm j = true ->
     elem (vlenb c) (regs st') vd (sew c) j = wrap (8 * sew c) (Z.of_nat (length (hits (vlenb c) (regs st) vs2 vm j)))) /\
  (forall a, (forall j, 0 <= j < vl c -> mask_of (vlenb c) (regs st) vm j = true -> ~ in_elem (vlenb c) vd (sew c) j a) ->
     regs st' a = regs st a).
Proof. intros st vd vs2 vm c st' HC HD Hx Hs Ho. apply exec_iota_spec; try assumption. fold c. lia. Qed.
Print Assumptions viota_partial.
(** viota.m v4, v3, v0.t at SEW=16, LMUL=2, vl=13. *)
Example viota_case : config 16 2 16 13 /\ group 2 16 2 4 /\
  map (elem 16 (regs (exec_iota (demo 2 16 13 0 0 false false) 4 3 false)) 4 2) (zrange 13) = [0; 12843; 1; 2; 3; 27235; 3; 34431; 38029; 41627; 3; 48823; 52421].
Proof. split; [apply demo_config; cbn; lia|]. split; [unfold group, nregs, emul8; cbn; lia|]. vm_compute. reflexivity. Qed.

(** C45.  vid.v with vstart = 0: active element j of vd is j; everything else is unchanged.  Missing: a
    non-zero vstart (refuted below). *)
Theorem vid_partial : forall st vd vm,
  let c := cfg st in
  let st' := exec_id st vd vm in
  config (vlenb c) (sew c) (lmul8 c) (vl c) -> group (sew c) (lmul8 c) (sew c) vd -> vexc c = false -> vstart c = 0 ->
  cfg st' = set_vstart c 0 /\
  (forall j, 0 <= j < vl c -> mask_of (vlenb c) (regs st) vm j = true ->
     elem (vlenb c) (regs st') vd (sew c) j = wrap (8 * sew c) j) /\
  (forall a, (forall j, 0 <= j < vl c -> mask_of (vlenb c) (regs st) vm j = true -> ~ in_elem (vlenb c) vd (sew c) j a) ->
     regs st' a = regs st a).
Proof.
  intros st vd vm c st' HC HD Hx Hs. destruct (exec_id_spec st vd vm HC HD Hx) as (H1 & H2 & H3); [fold c; lia|].
  fold c st' in H1, H2, H3. rewrite Hs in H2, H3. split; [exact H1|]. split; [|exact H3].
  intros j Hj Hm. rewrite H2 by assumption. f_equal. lia.
Qed.
Print Assumptions vid_partial.
Example vid_case : config 16 2 16 13 /\ group 2 16 2 4 /\
  map (elem 16 (regs (exec_id (demo 2 16 13 0 0 false false) 4 false)) 4 2) (zrange 13) = [0; 12843; 2; 3; 4; 27235; 6; 34431; 38029; 41627; 10; 48823; 52421].
Proof. split; [apply demo_config; cbn; lia|]. split; [unfold group, nregs, emul8; cbn; lia|]. vm_compute. reflexivity. Qed.
(** C45 is false for vstart = 2: viota.m does not raise an exception and counts from element 2; vid.v
    numbers the elements from 0 at element 2. *)
Theorem viota_vid_vstart_refuted : exists st,
  config 16 (sew (cfg st)) (lmul8 (cfg st)) (vl (cfg st)) /\ vexc (cfg st) = false /\ vstart (cfg st) = 2 /\ vl (cfg st) = 4 /\
  vexc (cfg (exec_iota st 2 1 true)) = false /\
  elem 16 (regs (exec_iota st 2 1 true)) 2 1 3 <> Z.of_nat (length (hits 16 (regs st) 1 true 3)) /\
  elem 16 (regs (exec_id st 2 true)) 2 1 3 = 1.
Proof.
  exists (demo_w [0; 0; 15; 0; 0; 0] 1 8 4 2). split; [apply demo_config; cbn; lia|].
  do 4 (split; [reflexivity|]). split; [vm_compute; discriminate|vm_compute; reflexivity].
Qed.
Print Assumptions viota_vid_vstart_refuted.

(** C44.  Reductions with vstart = 0 and vl > 0: vd[0] becomes the reduction of vs1[0] and the active
    elements of vs2 and nothing else changes.  Missing: vl = 0; widening sums at LMUL = 8 or with a
    vs1[0] that is not the extension of its low SEW bits (refuted below). *)
Theorem reduction_partial : forall st o vd vs2 vs1 vm,
  let c := cfg st in
  let wd := if widening o then 2 * sew c else sew c in
  let x := elem (vlenb c) (regs st) vs1 (sew c) 0 in
  config (vlenb c) (sew c) (lmul8 c) (vl c) -> group (sew c) (lmul8 c) (sew c) vs2 ->
  byte_mem (regs st) -> vexc c = false -> vstart c = 0 -> 0 < vl c ->
  (widening o = true -> sew c <= 4 /\ lmul8 c <= 32 /\
     elem (vlenb c) (regs st) vs1 wd 0 = wrap (8 * wd) (match o with Rwsum => sgn (8 * sew c) x | _ => x end)) ->
  exists st', exec_red st o vd vs2 vs1 vm = Some st' /\ cfg st' = set_vstart c 0 /\
    elem (vlenb c) (regs st') vd wd 0 =
      red_spec o (8 * sew c) (elem (vlenb c) (regs st) vs1 wd 0) (active_elems (vlenb c) (regs st) vs2 (sew c) vm (vl c)) /\
    (forall a, ~ in_elem (vlenb c) vd wd 0 a -> regs st' a = regs st a).
Proof.
  intros st o vd vs2 vs1 vm c wd x HC HG Hb Hx Hs Hv Hw.
  destruct (exec_red_spec st o vd vs2 vs1 vm HC HG) as (st' & E & H1 & H2 & H3); try assumption.
  { intros h. destruct (Hw h) as (h1 & h2 & _). split; assumption. }
  exists st'. split; [exact E|]. split; [exact H1|]. split; [|exact H3]. fold c wd x in H2. rewrite H2. f_equal.
  destruct (widening o) eqn:Ew.
  - destruct (Hw eq_refl) as (_ & _ & ->). pose proof (sew_ge1 _ _ _ _ HC) as H0. fold c in H0. unfold wd.
    replace (16 * sew c) with (8 * (2 * sew c)) by lia.
    assert (inw (8 * sew c) x) as Hxr by (apply elem_inw; [exact Hb|lia]).
    destruct o; try discriminate Ew; [|reflexivity]. symmetry. apply wrap_id. apply (inw_weaken (8 * sew c)); [lia|exact Hxr].
  - destruct o; try discriminate Ew; reflexivity.
Qed.
Print Assumptions reduction_partial.
(** vredmin.vs v3, v4, v6, v0.t at SEW=16, LMUL=2, vl=13; and vwredsum.vs with a small seed. *)
Example reduction_case : config 16 2 16 13 /\ group 2 16 2 4 /\
  option_map (fun s => elem 16 (regs s) 3 2 0) (exec_red (demo 2 16 13 0 0 false false) Rmin 3 4 6 false) = Some 45225.
Proof. split; [apply demo_config; cbn; lia|]. split; [unfold group, nregs, emul8; cbn; lia|]. vm_compute. reflexivity. Qed.
Example reduction_wide_case :
  option_map (fun s => elem 16 (regs s) 3 2 0) (exec_red (demo_w [0; 0; 0x80ff; 0; 0xfffe; 0; 0; 0] 1 8 16 0) Rwsum 3 1 2 true) = Some (wrap 16 (-131)).
Proof. vm_compute. reflexivity. Qed.
(** C44 is false: vredsum.vs with vl = 0 writes vd[0]; vwredsumu.vs ignores the upper half of vs1[0];
    vwredsumu.vs at LMUL = 8 raises the exception; a non-zero vstart raises none. *)
Theorem reduction_refuted :
  (exists st st', config 16 (sew (cfg st)) (lmul8 (cfg st)) (vl (cfg st)) /\ vexc (cfg st) = false /\ vstart (cfg st) = 0 /\ vl (cfg st) = 0 /\
     exec_red st Rsum 3 1 2 true = Some st' /\ elem 16 (regs st') 3 1 0 <> elem 16 (regs st) 3 1 0) /\
  (exists st st', config 16 (sew (cfg st)) (lmul8 (cfg st)) (vl (cfg st)) /\ vexc (cfg st) = false /\ vstart (cfg st) = 0 /\ vl (cfg st) = 1 /\
     exec_red st Rwsumu 3 1 2 true = Some st' /\
     elem 16 (regs st') 3 2 0 <> red_spec Rwsumu 8 (elem 16 (regs st) 2 2 0) (active_elems 16 (regs st) 1 1 true 1)) /\
  (exists st st', config 16 (sew (cfg st)) (lmul8 (cfg st)) (vl (cfg st)) /\ vexc (cfg st) = false /\ vstart (cfg st) = 0 /\ vl (cfg st) = 1 /\
     lmul8 (cfg st) = 64 /\ sew (cfg st) = 1 /\ exec_red st Rwsumu 8 16 3 true = Some st' /\ vexc (cfg st') = true) /\
  (exists st, vstart (cfg st) <> 0 /\ vexc (cfg st) = false /\ exec_red st Rsum 3 1 2 true = Some st).
Proof.
  split; [|split; [|split]].
  - exists (demo_w [0; 0; 0; 0; 7; 0; 0; 0] 1 8 0 0). eexists. split; [apply demo_config; cbn; lia|].
    do 4 (split; [reflexivity|]). vm_compute. discriminate.
  - exists (demo_w [0; 0; 3; 0; 0x107; 0; 0; 0] 1 8 1 0). eexists. split; [apply demo_config; cbn; lia|].
    do 4 (split; [reflexivity|]). vm_compute. discriminate.
  - exists (demo_w [] 1 64 1 0). eexists. split; [apply demo_config; cbn; lia|].
    do 6 (split; [reflexivity|]). reflexivity.
  - exists (demo_w [] 1 8 4 1). split; [discriminate|]. split; reflexivity.
Qed.
Print Assumptions reduction_refuted.

(** C64.  vmv.s.x with vstart = 0 and vl > 0 writes the scalar, wrapped to SEW, to vd[0] and nothing else;
    with vl = 0 or vstart <> 0 nothing changes.  vmv.x.s with vstart = 0 and vl > 0 on RV32 writes the
    sign-extended (or truncated) vs2[0] to rd.  Missing for vmv.x.s: vl = 0, and RV64 (refuted
    below). *)
Theorem scalar_move_partial : forall st vd vs2 x junk,
  let c := cfg st in
  config (vlenb c) (sew c) (lmul8 c) (vl c) ->
  (vstart c = 0 -> 0 < vl c ->
     let st' := exec_vmv_sx st vd x in
     elem (vlenb c) (regs st') vd (sew c) 0 = wrap (8 * sew c) x /\ cfg st' = c /\
     (forall a, ~ in_elem (vlenb c) vd (sew c) 0 a -> regs st' a = regs st a)) /\
  (vstart c <> 0 \/ vl c = 0 -> exec_vmv_sx st vd x = st) /\
  (vstart c = 0 -> 0 < vl c ->
     exec_vmv_xs st 32 junk vs2 = Some (st, Some (wrap 32 (sgn (8 * sew c) (elem (vlenb c) (regs st) vs2 (sew c) 0))))).
Proof.
  intros st vd vs2 x junk c HC. pose proof (sew_in _ _ _ _ HC) as Hse. pose proof (vl_bits _ _ _ _ HC) as (_ & Hvb).
  assert (1 <= sew c <= 8) as Hs by (destruct HC as (_ & Hs & _); clear - Hs; destruct Hs as [<-|[<-|[<-|[<-|[]]]]]; lia).
  split; [|split].
  - intros H0 Hv st'. unfold st', exec_vmv_sx. fold c. rewrite H0, Hse. change (negb (0 =? 0)) with false. cbv iota.
    destruct (Z.eqb_spec (vl c) 0); [lia|]. cbn [regs cfg].
    destruct (submit_store0 (vlenb c) (regs st) vd (sew c) (wrap (8 * sew c) x)) as (S1 & S2); [lia|].
    split; [rewrite S1; apply wrap_wrap; lia|]. split; [reflexivity|exact S2].
  - intros H. unfold exec_vmv_sx. fold c. destruct (Z.eqb_spec (vstart c) 0) as [E|E]; cbn [negb]; [|reflexivity].
    destruct (Z.eqb_spec (vl c) 0); [reflexivity|]. destruct H; contradiction.
  - intros H0 Hv. unfold exec_vmv_xs. fold c. rewrite H0, Hse. change (negb (0 =? 0)) with false. cbv iota.
    destruct (Z.eqb_spec (vl c) 0); [lia|]. rewrite read_elem0; [reflexivity|].
    apply Z.div_le_lower_bound; lia.
Qed.
Print Assumptions scalar_move_partial.
Example scalar_move_case : config 16 2 16 13 /\
  option_map snd (exec_vmv_xs (demo 2 16 13 0 0 false false) 32 0 5) = Some (Some 4294939789).
Proof. split; [apply demo_config; cbn; lia|]. vm_compute. reflexivity. Qed.
(** C64 is false: with vl = 0, vmv.x.s does not write rd; on RV64 it writes only the low 32 bits, so a
    64-bit element is truncated and a negative one is not sign-extended, whatever [junk] is. *)
Theorem scalar_move_refuted :
  (exists st, config 16 (sew (cfg st)) (lmul8 (cfg st)) (vl (cfg st)) /\ vexc (cfg st) = false /\ vl (cfg st) = 0 /\ vstart (cfg st) = 0 /\
     exec_vmv_xs st 32 0 1 = Some (st, None)) /\
  (exists s1 s2, config 16 (sew (cfg s1)) (lmul8 (cfg s1)) (vl (cfg s1)) /\ sew (cfg s1) = 8 /\ cfg s2 = cfg s1 /\
     elem 16 (regs s1) 1 8 0 <> elem 16 (regs s2) 1 8 0 /\
     forall junk, option_map snd (exec_vmv_xs s1 64 junk 1) = option_map snd (exec_vmv_xs s2 64 junk 1)).
Proof.
  split.
  - exists (demo_w [] 1 8 0 0). split; [apply demo_config; cbn; lia|]. do 3 (split; [reflexivity|]). reflexivity.
  - exists (demo_w [0; 0; 5; 0] 8 8 1 0), (demo_w [0; 0; 2 ^ 32 + 5; 0] 8 8 1 0). split; [apply demo_config; cbn; lia|].
    do 2 (split; [reflexivity|]). split; [vm_compute; discriminate|]. intros junk. reflexivity.
Qed.
Print Assumptions scalar_move_refuted.

(** C65.  Whole-register moves vmv<n>r.v: element bytes from vstart on are copied, all other bytes are
    unchanged, provided vstart is a multiple of the elements per register.  Missing: other vstart
    (refuted below).  Misaligned register numbers raise the exception. *)
Theorem whole_register_move_partial : forall st n vd vs2,
  let c := cfg st in
  let st' := exec_vmvr st n vd vs2 in
  config (vlenb c) (sew c) (lmul8 c) (vl c) -> In n [1; 2; 4; 8] -> 0 <= vd < 32 -> 0 <= vs2 < 32 ->
  vd mod n = 0 -> vs2 mod n = 0 -> vexc c = false -> 0 <= vstart c -> vstart c mod (vlenb c / sew c) = 0 ->
  cfg st' = set_vstart c 0 /\
  (forall k, vstart c * sew c <= k < n * vlenb c -> regs st' (vd * vlenb c + k) = regs st (vs2 * vlenb c + k)) /\
  (forall a, ~ (vd * vlenb c + vstart c * sew c <= a < (vd + n) * vlenb c) -> regs st' a = regs st a).
Proof.
  intros st n vd vs2 c st' HC Hn Hvd Hvs Hmd Hms Hx Hs Hal.
  pose proof (aligned_regs n vd Hn Hvd Hmd) as A1. pose proof (aligned_regs n vs2 Hn Hvs Hms) as A2.
  destruct (config_vb _ _ _ _ HC) as (q & Hq & Hvb).
  assert (In (sew c) [1; 2; 4; 8]) as Hin by (destruct HC as (_ & Hin & _); exact Hin).
  pose proof (epv_spec q (sew c) Hin Hq) as (He & He1). rewrite <- Hvb in He, He1. fold c in He, He1.
  assert (vd = vs2 \/ vd + n <= vs2 \/ vs2 + n <= vd) as Hd.
  { clear - Hn Hmd Hms. destruct Hn as [<-|[<-|[<-|[<-|[]]]]]; apply Z.mod_divide in Hmd, Hms; try lia;
      destruct Hmd as (p & ->), Hms as (r & ->); lia. }
  assert (1 <= vlenb c) as Hvb1 by (clear - Hq Hvb; fold c in Hvb; lia).
  assert (vstart c * sew c = vstart c / (vlenb c / sew c) * vlenb c) as Est.
  { rewrite He at 2. pose proof (Z.div_mod (vstart c) (vlenb c / sew c) ltac:(clear - He1; lia)) as D. rewrite Hal in D. rewrite D at 1. ring. }
  assert (0 <= vstart c / (vlenb c / sew c)) as Hp by (apply Z.div_pos; clear - Hs He1; lia).
  assert (0 <= n) as Hn0 by (clear - Hn; destruct Hn as [<-|[<-|[<-|[<-|[]]]]]; lia).
  unfold st', exec_vmvr. fold c. rewrite Hx.
  destruct (Z.ltb_spec (num_regs vs2) n); [lia|]. destruct (Z.ltb_spec (num_regs vd) n); [lia|]. cbv zeta. cbn [regs cfg].
  split; [reflexivity|]. rewrite Est. set (s := vstart c / (vlenb c / sew c)) in *. clearbody s. clear He He1 Hal Est.
  split.
  - intros k Hk. rewrite (vmvr_spec _ _ _ _ Hvb1) by (try exact Hd; lia).
    destruct (Z.leb_spec ((vd + s) * vlenb c) (vd * vlenb c + k)), (Z.ltb_spec (vd * vlenb c + k) ((vd + n) * vlenb c)); try lia.
    cbn [andb]. f_equal. lia.
  - intros a Ha. rewrite (vmvr_spec _ _ _ _ Hvb1) by (try exact Hd; lia).
    destruct (Z.leb_spec ((vd + s) * vlenb c) a), (Z.ltb_spec a ((vd + n) * vlenb c)); try reflexivity. exfalso. apply Ha. lia.
Qed.
Print Assumptions whole_register_move_partial.
Example whole_register_move_case : config 16 2 16 13 /\ 8 mod (16 / 2) = 0 /\
  elem 16 (regs (exec_vmvr (demo 2 16 13 8 0 false false) 4 4 12)) 6 2 3 = elem 16 demo_regs 14 2 3.
Proof. split; [apply demo_config; cbn; lia|]. split; reflexivity. Qed.
(** C65 is false for vstart = 1: element 0 is copied as well. *)
Theorem whole_register_move_refuted : exists st,
  config 16 (sew (cfg st)) (lmul8 (cfg st)) (vl (cfg st)) /\ vexc (cfg st) = false /\ vstart (cfg st) = 1 /\
  elem 16 (regs (exec_vmvr st 1 2 1)) 2 (sew (cfg st)) 0 <> elem 16 (regs st) 2 (sew (cfg st)) 0.
Proof.
  exists (demo_w [0; 0; 5; 0; 0; 0] 8 8 2 1). split; [apply demo_config; cbn; lia|]. do 2 (split; [reflexivity|]). vm_compute. discriminate.
Qed.
Print Assumptions whole_register_move_refuted.
