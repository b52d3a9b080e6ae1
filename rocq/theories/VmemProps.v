(** C41, C42, C67, C68, C69: vector loads and stores. *)
From Coq Require Import ZArith Bool List Lia.
From Verif Require Import Bits Memory VelemSpec VmaskSpec VpermSpec VmemSpec VcfgModel VelemModel VmemModel
  VelemProofs4 VpermProofs VmemProofs1 VmemProofs3 VmemProofs4 VmemProofs5 VmemProofs6 VmemProofs7 VelemProps VmaskProps VpermProps.
Import ListNotations.
Local Open Scope Z_scope.

(** C41.  A vector load (unit-stride, strided, indexed) puts the memory value at base + offset(i) into every
    active element i of vd and changes no other byte of the register file; memory is unchanged and vstart
    becomes 0.  Missing (all refuted below): vstart inside a register, nonzero vstart of indexed loads,
    vstart > vl, masked-off elements at unreachable addresses, address wrap-around on RV32, strides for which
    index * stride overflows 64 bits. *)
Theorem vload_partial : forall xlen st m maxpa I,
  let c := cfg st in let w := data_width (sew c) I in
  byte_mem m -> legal_mem (vlenb c) (sew c) (lmul8 c) (vl c) I -> nf I = 1 ->
  0 <= vstart c <= vl c -> vstart c mod (vlenb c / w) = 0 ->
  match am I with Indexed _ _ _ => vstart c = 0 | _ => True end ->
  stride_ok (vstart c) (vl c) I -> in_space xlen (vlenb c) w (vstart c) (vl c) (regs st) I ->
  reachable xlen (vlenb c) w (vstart c) (vl c) maxpa (regs st) I ->
  exists rf', exec_load st m maxpa I =
      Some {| o_vs := {| regs := rf'; cfg := set_vstart c 0 |}; o_mem := m; o_trap := None |} /\
    load_spec (vlenb c) (nregs (sew c) (lmul8 c) w) w 1 (vreg I)
      (fun i => act (vlenb c) (vstart c) (vl c) (regs st) I i = true) (addr xlen (vlenb c) w (regs st) I) m (regs st) rf'.
Proof.
  intros xlen st m maxpa I c w Hb HL H1 Hs Ha Hx Hst Hsp Hre.
  destruct (vload1_ok xlen st m maxpa I Hb HL H1 Hs Ha Hx Hst Hsp Hre) as (rf' & E & L). exists rf'. split; [exact E|].
  rewrite H1 in L. exact L.
Qed.
Print Assumptions vload_partial.

(** Model only, for the examples: memory whose byte at a is a mod 256. *)
Definition ramp : mem := fun a => a mod 256.
Lemma ramp_byte : byte_mem ramp. Proof. intros a. apply Z.mod_pos_bound. lia. Qed.
(** Model only, for the examples. *)
Definition vle32 (vd base : Z) (unmasked : bool) : vmem := {| am := Unit; ew := 4; nf := 1; vreg := vd; base := base; vm := unmasked |}.
Lemma legal_gen (sew lm vl w n vd base : Z) (vm : bool) a : In sew [1; 2; 4; 8] -> In lm [1; 2; 4; 8; 16; 32; 64] -> 0 <= vl <= 16 * lm / (8 * sew) ->
  (let W := match a with Indexed _ _ _ => sew | _ => w end in
   existsb (Z.eqb W) [1; 2; 4; 8] && (1 <=? emul8 sew lm W) && (emul8 sew lm W <=? 64) && (0 <=? vd) && (vd + nregs sew lm W <=? 32) &&
   (vd mod nregs sew lm W =? 0) && (1 <=? n) && (n <=? 8) && (n * emul8 sew lm W <=? 64) && (vd + n * nregs sew lm W <=? 32) &&
   match a with Indexed _ iw vs2 => existsb (Z.eqb iw) [1; 2; 4; 8] && (1 <=? emul8 sew lm iw) && (emul8 sew lm iw <=? 64) && (0 <=? vs2) &&
     (vs2 + nregs sew lm iw <=? 32) && (vs2 mod nregs sew lm iw =? 0) | _ => true end) = true ->
  legal_mem 16 sew lm vl {| am := a; ew := w; nf := n; vreg := vd; base := base; vm := vm |}.
Proof.
  intros H1 H2 H3 H. unfold legal_mem, data_width, group. cbn [am ew nf vreg]. cbv zeta in H |- *.
  set (W := match a with Indexed _ _ _ => sew | _ => w end) in *. rewrite andb_true_iff in H. destruct H as (H & HI).
  rewrite !andb_true_iff, !Z.leb_le, Z.eqb_eq in H. destruct H as (((((((((A & B) & C) & D) & E) & F) & G) & J) & K) & L).
  apply existsb_exists in A. destruct A as (w' & A & A2). apply Z.eqb_eq in A2. subst w'.
  split; [apply demo_config; assumption|]. repeat (split; [auto; lia|]). destruct a; try exact Logic.I.
  rewrite !andb_true_iff, !Z.leb_le, Z.eqb_eq in HI. destruct HI as (((((A' & B') & C') & D') & E') & F').
  apply existsb_exists in A'. destruct A' as (w' & A' & A2). apply Z.eqb_eq in A2. subst w'. repeat (split; [auto; lia|]). exact F'.
Qed.

(** A masked vle32.v of 7 elements into v4-v5 (element 1 masked off). *)
Example vload_example : let st := demo_w [125; 0] 4 16 7 0 in let I := vle32 4 4096 false in
  legal_mem 16 4 16 7 I /\ reachable 64 16 4 0 7 5000 (regs st) I /\
  exists o, exec_load st ramp 5000 I = Some o /\
    map (elem 16 (regs (o_vs o)) 4 4) (zrange 8) = [50462976; 0; 185207048; 252579084; 319951120; 387323156; 454695192; 0].
Proof.
  split; [apply legal_gen; [cbn; auto|cbn; auto 10|cbn; lia|reflexivity]|]. split.
  - intros i f (Hi & Hf). cbn [nf vle32] in Hf. unfold addr, raw_addr, seg_offset. cbn [am base nf vle32 Z.mul].
    rewrite Z.mod_small; [|change (2 ^ 64) with 18446744073709551616]; lia.
  - apply some_prop. vm_compute. reflexivity.
Qed.

(** C41.  For every vstart up to vl, a unit-stride or strided load changes nothing outside the elements
    vstart <= i < vl of vd. *)
Theorem vload_frame : forall xlen st m maxpa I,
  let c := cfg st in let w := data_width (sew c) I in
  byte_mem m -> legal_mem (vlenb c) (sew c) (lmul8 c) (vl c) I -> nf I = 1 -> 0 <= vstart c <= vl c ->
  match am I with Indexed _ _ _ => False | _ => True end ->
  stride_ok (vstart c) (vl c) I -> in_space xlen (vlenb c) w (vstart c) (vl c) (regs st) I ->
  reachable xlen (vlenb c) w (vstart c) (vl c) maxpa (regs st) I ->
  exists rf', exec_load st m maxpa I =
      Some {| o_vs := {| regs := rf'; cfg := set_vstart c 0 |}; o_mem := m; o_trap := None |} /\
    forall b, (forall i, vstart c <= i < vl c -> ~ in_elem (vlenb c) (vreg I) w i b) -> rf' b = regs st b.
Proof.
  intros xlen st m maxpa I c w Hb (HC & HG & Hnf & Hem & Hreg & HI) H1 Hs Hx Hst Hsp Hre. fold w in HG, Hem, Hreg.
  pose proof (VmaskProofs1.sew_ge1 _ _ _ _ HC) as Hsew. pose proof (lmul_pos _ _ _ _ HC) as Hl.
  destruct (w_facts _ _ _ _ w HC (proj1 HG)) as (Hw & Hvb & He & Hv). pose proof (proj1 (proj2 HG)) as Hem1.
  assert (forall i, vstart c <= i < vl c -> body (vstart c) (vl c) I i 0) as HB by (intros i Hi; split; lia).
  assert (exists s, exec_load st m maxpa I = vl_strided st m maxpa w (base I) s (vreg I) (vm I) /\
    (forall i, vstart c <= i < vl c -> strided_addr (base I) s i = Some (addr xlen (vlenb c) w (regs st) I i 0))) as (s & -> & HA).
  { unfold exec_load. rewrite H1. cbn [Z.eqb Pos.eqb].
    assert (w = match am I with Indexed _ _ _ => sew c | _ => ew I end) as Ew by reflexivity. clearbody w.
    destruct (am I) as [|s|o iw vs2] eqn:Eam; [exists w|exists s|destruct Hx]; rewrite <- Ew; (split; [reflexivity|]); intros i Hi;
      (rewrite strided_ok; [f_equal; rewrite <- (addr_ok _ _ _ _ _ _ _ _ _ Hsp (HB i Hi)); f_equal; unfold raw_addr, seg_offset; rewrite Eam, ?H1; ring|]).
    - apply (unit_stride_ok _ _ _ _ w i HC (proj1 HG)). lia.
    - unfold stride_ok in Hst. rewrite Eam in Hst. apply Hst. exact Hi. }
  unfold vl_strided. fold c. rewrite emul_eq by lia.
  destruct (Z.ltb_spec 64 (emul8 (sew c) (lmul8 c) w)); [lia|]. destruct (Z.eqb_spec (emul8 (sew c) (lmul8 c) w) 0); [lia|]. cbn [orb].
  destruct (load1_gen st m maxpa w (vreg I) (vm I) (fun k => strided_addr (base I) s (k + vstart c)) (fun i => addr xlen (vlenb c) w (regs st) I i 0) Hb HC HG Hs) as (rf' & E & (_ & U)).
  { intros i Hi. cbn beta. fold c in Hi |- *. replace (i - vstart c + vstart c) with i by lia. split; [apply HA; exact Hi|apply Hre, HB, Hi]. }
  exists rf'. split; [exact E|]. intros b Hbb. apply U. intros j ((Hj & _) & _). apply Hbb. exact Hj.
Qed.
Print Assumptions vload_frame.

(** Refutations of the full C41.  In each case the instruction is legal. *)
(** Model only, for the statements. *)
Definition legal_at (st : vstate) (I : vmem) : Prop := legal_mem (vlenb (cfg st)) (sew (cfg st)) (lmul8 (cfg st)) (vl (cfg st)) I.

(** A load resumed at vstart = 1 puts the data of element 2 into element 1, and leaves the last element
    unchanged. *)
Theorem vload_vstart_refuted : exists st I, legal_at st I /\ nf I = 1 /\ am I = Unit /\ vm I = true /\ vstart (cfg st) = 1 /\ vl (cfg st) = 4 /\
  exists o, exec_load st ramp (2 ^ 64 - 1) I = Some o /\ o_trap o = None /\
    elem 16 (regs (o_vs o)) (vreg I) 4 1 = load_le ramp (base I + 8) 4 /\ load_le ramp (base I + 8) 4 <> load_le ramp (base I + 4) 4 /\
    elem 16 (regs (o_vs o)) (vreg I) 4 3 = 0 /\ load_le ramp (base I + 12) 4 <> 0.
Proof.
  exists (demo_w [] 4 8 4 1), (vle32 4 4096 true). split; [apply legal_gen; [cbn; auto|cbn; auto 10|cbn; lia|reflexivity]|].
  do 5 (split; [reflexivity|]). apply some_prop. vm_compute. repeat split; try reflexivity; discriminate.
Qed.
Print Assumptions vload_vstart_refuted.

(** An indexed load with a nonzero vstart, and a load with vstart > vl, have undefined behaviour. *)
Theorem vload_undefined_refuted :
  (exists st I, legal_at st I /\ nf I = 1 /\ am I = Indexed true 4 8 /\ 0 < vstart (cfg st) < vl (cfg st) /\ exec_load st ramp (2 ^ 64 - 1) I = None) /\
  (exists st I, legal_at st I /\ nf I = 1 /\ am I = Unit /\ vl (cfg st) < vstart (cfg st) /\ exec_load st ramp (2 ^ 64 - 1) I = None) /\
  (exists st I s, legal_at st I /\ nf I = 1 /\ am I = Strided s /\ vstart (cfg st) = 0 /\ - 2 ^ 63 <= s < 2 ^ 63 /\ exec_load st ramp (2 ^ 64 - 1) I = None).
Proof.
  split; [|split].
  - exists (demo_w [] 4 8 4 1), {| am := Indexed true 4 8; ew := 4; nf := 1; vreg := 4; base := 4096; vm := true |}.
    split; [apply legal_gen; [cbn; auto|cbn; auto 10|cbn; lia|reflexivity]|]. do 2 (split; [reflexivity|]). split; [cbn; lia|]. vm_compute. reflexivity.
  - exists (demo_w [] 4 8 2 3), (vle32 4 4096 true).
    split; [apply legal_gen; [cbn; auto|cbn; auto 10|cbn; lia|reflexivity]|]. do 2 (split; [reflexivity|]). split; [cbn; lia|]. vm_compute. reflexivity.
  - exists (demo_w [] 4 8 4 0), {| am := Strided (2 ^ 62); ew := 4; nf := 1; vreg := 4; base := 4096; vm := true |}, (2 ^ 62).
    split; [apply legal_gen; [cbn; auto|cbn; auto 10|cbn; lia|reflexivity]|]. do 3 (split; [reflexivity|]). split; [lia|]. vm_compute. reflexivity.
Qed.
Print Assumptions vload_undefined_refuted.

(** On RV32 a load that passes the top of the address space reads from 2^32 instead of 0. *)
Theorem vload_rv32_refuted : exists st I m, legal_at st I /\ nf I = 1 /\ vm I = true /\ vstart (cfg st) = 0 /\ vl (cfg st) = 2 /\
  addr 32 16 4 (regs st) I 1 0 = 0 /\ byte_mem m /\
  exists o, exec_load st m (2 ^ 64 - 1) I = Some o /\ o_trap o = None /\
    elem 16 (regs (o_vs o)) (vreg I) 4 1 = 0 /\ load_le m 0 4 = 1.
Proof.
  exists (demo_w [] 4 8 2 0), (vle32 4 (2 ^ 32 - 4) true), (fun a => if a =? 0 then 1 else 0).
  split; [apply legal_gen; [cbn; auto|cbn; auto 10|cbn; lia|reflexivity]|]. do 5 (split; [reflexivity|]).
  split; [intros a; destruct (a =? 0); lia|]. apply some_prop. vm_compute. repeat split; reflexivity.
Qed.
Print Assumptions vload_rv32_refuted.

(** C42.  Segment loads: field f of segment i goes to element i of the f-th register group.  Missing (refuted
    below): nonzero vstart, vl = 0, groups of several registers with vl < VLMAX, and data registers whose number is
    not a multiple of a power of two >= NF * EMUL ([widest]: the largest aligned group at a register). *)
Theorem segment_load_partial : forall xlen st m maxpa I,
  let c := cfg st in let w := data_width (sew c) I in let g := nregs (sew c) (lmul8 c) w in
  byte_mem m -> legal_mem (vlenb c) (sew c) (lmul8 c) (vl c) I -> 2 <= nf I -> vstart c = 0 -> 1 <= vl c ->
  g = 1 \/ vl c = g * (vlenb c / w) -> nf I * g <= widest (vreg I) ->
  stride_ok 0 (vl c) I -> in_space xlen (vlenb c) w 0 (vl c) (regs st) I -> reachable xlen (vlenb c) w 0 (vl c) maxpa (regs st) I ->
  exists rf', exec_load st m maxpa I =
      Some {| o_vs := {| regs := rf'; cfg := set_vstart c 0 |}; o_mem := m; o_trap := None |} /\
    load_spec (vlenb c) g w (nf I) (vreg I)
      (fun i => act (vlenb c) 0 (vl c) (regs st) I i = true) (addr xlen (vlenb c) w (regs st) I) m (regs st) rf'.
Proof.
  intros xlen st m maxpa I c w g Hb HL H1 Hs Hv Hg Hr Hst Hsp Hre.
  destruct (vload_seg_ok xlen st m maxpa I Hb HL H1 Hs Hv Hg Hr Hst Hsp Hre) as (rf' & E & L). exists rf'. split; [exact E|].
  fold c w g in L. rewrite Hs in L. exact L.
Qed.
Print Assumptions segment_load_partial.

(** vlseg3e16.v into v8, v9, v10. *)
Example segment_load_example : let st := demo_w [] 2 8 3 0 in
  let I := {| am := Unit; ew := 2; nf := 3; vreg := 8; base := 256; vm := true |} in
  legal_at st I /\ 3 * 1 <= widest 8 /\ reachable 64 16 2 0 3 1000 (regs st) I /\
  exists o, exec_load st ramp 1000 I = Some o /\
    map (fun f => map (elem 16 (regs (o_vs o)) (8 + f) 2) (zrange 4)) (zrange 3) =
    [[256; 1798; 3340; 0]; [770; 2312; 3854; 0]; [1284; 2826; 4368; 0]].
Proof.
  split; [apply legal_gen; [cbn; auto|cbn; auto 10|cbn; lia|reflexivity]|]. split; [vm_compute; discriminate|]. split.
  - intros i f (Hi & Hf). cbn [nf] in Hf. unfold addr, raw_addr, seg_offset. cbn [am base nf Z.mul Pos.mul].
    rewrite Z.mod_small; [|change (2 ^ 64) with 18446744073709551616]; lia.
  - apply some_prop. vm_compute. reflexivity.
Qed.

(** Refutations: with LMUL = 2 and vl = 1, field 1 is loaded into v9 instead of v10; vl = 0 divides by zero; v9
    with NF = 2 and LMUL = 1 raises the vector exception; a nonzero vstart is undefined. *)
Theorem segment_load_refuted :
  (exists st I, legal_at st I /\ nf I = 2 /\ am I = Unit /\ vm I = true /\ vreg I = 8 /\ ew I = 4 /\ nregs (sew (cfg st)) (lmul8 (cfg st)) 4 = 2 /\
     vstart (cfg st) = 0 /\ vl (cfg st) = 1 /\
     exists o, exec_load st ramp (2 ^ 64 - 1) I = Some o /\ o_trap o = None /\ elem 16 (regs (o_vs o)) 9 4 0 = load_le ramp (base I + 4) 4 /\
       elem 16 (regs (o_vs o)) 10 4 0 = 0 /\ load_le ramp (base I + 4) 4 <> 0) /\
  (exists st I, legal_at st I /\ nf I = 2 /\ am I = Unit /\ vstart (cfg st) = 0 /\ vl (cfg st) = 0 /\ exec_load st ramp (2 ^ 64 - 1) I = None) /\
  (exists st I, legal_at st I /\ nf I = 2 /\ am I = Unit /\ vstart (cfg st) = 0 /\ vl (cfg st) = 4 /\ vexc (cfg st) = false /\
     exists o, exec_load st ramp (2 ^ 64 - 1) I = Some o /\ vexc (cfg (o_vs o)) = true) /\
  (exists st I, legal_at st I /\ nf I = 2 /\ am I = Unit /\ 0 < vstart (cfg st) < vl (cfg st) /\ exec_load st ramp (2 ^ 64 - 1) I = None).
Proof.
  split; [|split; [|split]].
  - exists (demo_w [] 4 16 1 0), {| am := Unit; ew := 4; nf := 2; vreg := 8; base := 4096; vm := true |}.
    split; [apply legal_gen; [cbn; auto|cbn; auto 10|cbn; lia|reflexivity]|]. do 8 (split; [reflexivity|]).
    apply some_prop. vm_compute. repeat split; try reflexivity; discriminate.
  - exists (demo_w [] 4 8 0 0), {| am := Unit; ew := 4; nf := 2; vreg := 8; base := 4096; vm := true |}.
    split; [apply legal_gen; [cbn; auto|cbn; auto 10|cbn; lia|reflexivity]|]. do 4 (split; [reflexivity|]). vm_compute. reflexivity.
  - exists (demo_w [] 4 8 4 0), {| am := Unit; ew := 4; nf := 2; vreg := 9; base := 4096; vm := true |}.
    split; [apply legal_gen; [cbn; auto|cbn; auto 10|cbn; lia|reflexivity]|]. do 5 (split; [reflexivity|]).
    apply some_prop. vm_compute. reflexivity.
  - exists (demo_w [] 4 8 4 1), {| am := Unit; ew := 4; nf := 2; vreg := 8; base := 4096; vm := true |}.
    split; [apply legal_gen; [cbn; auto|cbn; auto 10|cbn; lia|reflexivity]|]. do 2 (split; [reflexivity|]). split; [cbn; lia|]. vm_compute. reflexivity.
Qed.
Print Assumptions segment_load_refuted.

(** C67.  A vector store (one field) writes the active elements in element order, and nothing else.  Missing
    (refuted below): nonzero vstart; and as for loads, masked-off unreachable elements, RV32 wrap-around
    and overflowing strides. *)
Theorem vstore_partial : forall xlen st m maxpa I,
  let c := cfg st in let w := data_width (sew c) I in
  legal_mem (vlenb c) (sew c) (lmul8 c) (vl c) I -> nf I = 1 -> vstart c = 0 -> stride_ok 0 (vl c) I ->
  in_space xlen (vlenb c) w 0 (vl c) (regs st) I -> reachable xlen (vlenb c) w 0 (vl c) maxpa (regs st) I ->
  exists m', exec_store st m maxpa I = Some {| o_vs := {| regs := regs st; cfg := set_vstart c 0 |}; o_mem := m'; o_trap := None |} /\
    store_spec (vlenb c) (nregs (sew c) (lmul8 c) w) w 1 (vreg I) (vl c) (act (vlenb c) 0 (vl c) (regs st) I)
      (addr xlen (vlenb c) w (regs st) I) (regs st) m m'.
Proof.
  intros xlen st m maxpa I c w HL H1 Hs Hst Hsp Hre.
  destruct (vstore1_ok xlen st m maxpa I HL H1 Hs Hst Hsp Hre) as (m' & E & L). exists m'. split; [exact E|].
  fold c w in L. rewrite Hs, H1 in L. exact L.
Qed.
Print Assumptions vstore_partial.

(** vsuxei8.v of 3 elements of 2 bytes with overlapping targets: the last one wins. *)
Example vstore_example : let st := demo_w [5; 0; 17 + 2 ^ 16 * 34 + 2 ^ 32 * 51; 0; 0; 0; 4 + 256 * 9 + 65536 * 4; 0] 2 8 3 0 in
  let I := {| am := Indexed false 1 3; ew := 1; nf := 1; vreg := 1; base := 256; vm := false |} in
  legal_at st I /\ reachable 64 16 2 0 3 1000 (regs st) I /\
  exists o, exec_store st (fun _ => 0) 1000 I = Some o /\ map (o_mem o) [260; 261; 265; 266] = [51; 0; 0; 0].
Proof.
  split; [apply legal_gen; [cbn; auto|cbn; auto 10|cbn; lia|reflexivity]|]. split.
  - intros i f (Hi & Hf). cbn [nf] in Hf. unfold addr. eapply Z.le_trans; [apply Z.mod_le; [|reflexivity]|].
    all: assert (i = 0 \/ i = 1 \/ i = 2) as [->|[->| ->]] by lia; assert (f = 0) as -> by lia; vm_compute; discriminate.
  - apply some_prop. vm_compute. reflexivity.
Qed.

(** C67, C42.  Segment stores.  Missing (refuted below): nonzero vstart, data registers as in segment_load_partial, the unordered
    indexed stores, and indices with the top bit set ([index_ok]). *)
Theorem segment_store_partial : forall xlen st m maxpa I,
  let c := cfg st in let w := data_width (sew c) I in let g := nregs (sew c) (lmul8 c) w in
  byte_mem (regs st) -> legal_mem (vlenb c) (sew c) (lmul8 c) (vl c) I -> 2 <= nf I -> vstart c = 0 -> nf I * g <= widest (vreg I) ->
  match am I with
  | Indexed ordered iw vs2 => ordered = true /\ (iw = 8 \/ forall i, 0 <= i < vl c -> elem (vlenb c) (regs st) vs2 iw i < 2 ^ (8 * iw - 1))
  | _ => True end ->
  in_space xlen (vlenb c) w 0 (vl c) (regs st) I -> reachable xlen (vlenb c) w 0 (vl c) maxpa (regs st) I ->
  exists m', exec_store st m maxpa I = Some {| o_vs := {| regs := regs st; cfg := set_vstart c 0 |}; o_mem := m'; o_trap := None |} /\
    store_spec (vlenb c) g w (nf I) (vreg I) (vl c) (act (vlenb c) 0 (vl c) (regs st) I)
      (addr xlen (vlenb c) w (regs st) I) (regs st) m m'.
Proof.
  intros xlen st m maxpa I c w g Hb HL H1 Hs Hr Hix Hsp Hre.
  destruct (vstore_seg_ok xlen st m maxpa I Hb HL H1 Hs Hr Hix Hsp Hre) as (m' & E & L). exists m'. split; [exact E|].
  fold c w g in L. rewrite Hs in L. exact L.
Qed.
Print Assumptions segment_store_partial.

(** vsseg2e8.v of v2, v3. *)
Example segment_store_example : let st := demo_w [0; 0; 0; 0; 1 + 256 * 2; 0; 3 + 256 * 4; 0] 1 8 2 0 in
  let I := {| am := Unit; ew := 1; nf := 2; vreg := 2; base := 256; vm := true |} in
  legal_at st I /\ 2 * 1 <= widest 2 /\ reachable 64 16 1 0 2 1000 (regs st) I /\
  exists o, exec_store st (fun _ => 0) 1000 I = Some o /\ map (o_mem o) [256; 257; 258; 259] = [1; 3; 2; 4].
Proof.
  split; [apply legal_gen; [cbn; auto|cbn; auto 10|cbn; lia|reflexivity]|]. split; [vm_compute; discriminate|]. split.
  - intros i f (Hi & Hf). cbn [nf] in Hf. unfold addr, raw_addr, seg_offset. cbn [am base nf Z.mul Pos.mul].
    rewrite Z.mod_small; [|change (2 ^ 64) with 18446744073709551616]; lia.
  - apply some_prop. vm_compute. reflexivity.
Qed.

(** Refutations: a nonzero vstart is undefined (one field; several fields); an unordered indexed segment store
    writes to base + f * index width, not to base + index; an ordered one reads the index 128 of 8 bits as -128;
    v9 with NF = 2 and LMUL = 1 is undefined. *)
Theorem vstore_refuted :
  (exists st I, legal_at st I /\ nf I = 1 /\ am I = Unit /\ 0 < vstart (cfg st) < vl (cfg st) /\ exec_store st ramp (2 ^ 64 - 1) I = None) /\
  (exists st I, legal_at st I /\ nf I = 2 /\ am I = Unit /\ 0 < vstart (cfg st) < vl (cfg st) /\ exec_store st ramp (2 ^ 64 - 1) I = None) /\
  (exists st I vs2, legal_at st I /\ nf I = 2 /\ am I = Indexed false 1 vs2 /\ vm I = true /\ vstart (cfg st) = 0 /\ vl (cfg st) = 1 /\
     exists o, exec_store st (fun _ => 0) (2 ^ 64 - 1) I = Some o /\ o_trap o = None /\
       o_mem o (addr 64 16 1 (regs st) I 0 0) = 0 /\ elem 16 (regs st) (vreg I) 1 0 = 7) /\
  (exists st I vs2, legal_at st I /\ nf I = 2 /\ am I = Indexed true 1 vs2 /\ vm I = true /\ vstart (cfg st) = 0 /\ vl (cfg st) = 1 /\
     exists o, exec_store st (fun _ => 0) (2 ^ 64 - 1) I = Some o /\ o_trap o = None /\
       o_mem o (addr 64 16 1 (regs st) I 0 0) = 0 /\ elem 16 (regs st) (vreg I) 1 0 = 7) /\
  (exists st I, legal_at st I /\ nf I = 2 /\ am I = Unit /\ vm I = true /\ vstart (cfg st) = 0 /\ vl (cfg st) = 1 /\
     exec_store st ramp (2 ^ 64 - 1) I = None).
Proof.
  split; [|split; [|split; [|split]]].
  - exists (demo_w [] 4 8 4 1), (vle32 4 4096 true).
    split; [apply legal_gen; [cbn; auto|cbn; auto 10|cbn; lia|reflexivity]|]. do 2 (split; [reflexivity|]). split; [cbn; lia|]. vm_compute. reflexivity.
  - exists (demo_w [] 4 8 4 1), {| am := Unit; ew := 4; nf := 2; vreg := 8; base := 4096; vm := true |}.
    split; [apply legal_gen; [cbn; auto|cbn; auto 10|cbn; lia|reflexivity]|]. do 2 (split; [reflexivity|]). split; [cbn; lia|]. vm_compute. reflexivity.
  - exists (demo_w [0; 0; 0; 0; 7; 0; 7; 0; 16; 0] 1 8 1 0), {| am := Indexed false 1 4; ew := 1; nf := 2; vreg := 2; base := 4096; vm := true |}, 4.
    split; [apply legal_gen; [cbn; auto|cbn; auto 10|cbn; lia|reflexivity]|]. do 5 (split; [reflexivity|]). apply some_prop. vm_compute. repeat split; reflexivity.
  - exists (demo_w [0; 0; 0; 0; 7; 0; 7; 0; 128; 0] 1 8 1 0), {| am := Indexed true 1 4; ew := 1; nf := 2; vreg := 2; base := 4096; vm := true |}, 4.
    split; [apply legal_gen; [cbn; auto|cbn; auto 10|cbn; lia|reflexivity]|]. do 5 (split; [reflexivity|]). apply some_prop. vm_compute. repeat split; reflexivity.
  - exists (demo_w [] 4 8 1 0), {| am := Unit; ew := 4; nf := 2; vreg := 9; base := 4096; vm := true |}.
    split; [apply legal_gen; [cbn; auto|cbn; auto 10|cbn; lia|reflexivity]|]. do 5 (split; [reflexivity|]). vm_compute. reflexivity.
Qed.
Print Assumptions vstore_refuted.

(** C42.  A unit-stride segment store (one to eight fields), followed by a unit-stride segment load of the same shape from the
    same address into any register groups and any register file with the same mask, restores every active element of
    every field. *)
Theorem segment_round_trip_partial : forall st m maxpa n w vs3 vd b vm rf2,
  let c := cfg st in let g := nregs (sew c) (lmul8 c) w in
  let I r := {| am := Unit; ew := w; nf := n; vreg := r; base := b; vm := vm |} in
  byte_mem m -> byte_mem (regs st) -> legal_mem (vlenb c) (sew c) (lmul8 c) (vl c) (I vs3) -> legal_mem (vlenb c) (sew c) (lmul8 c) (vl c) (I vd) ->
  vstart c = 0 -> 1 <= vl c -> n = 1 \/ g = 1 \/ vl c = g * (vlenb c / w) -> n * g <= widest vs3 -> n * g <= widest vd ->
  0 <= b -> b + n * vl c * w <= 2 ^ 64 -> b + n * vl c * w <= maxpa + 1 ->
  (forall i, 0 <= i < vl c -> mask_of (vlenb c) rf2 vm i = mask_of (vlenb c) (regs st) vm i) ->
  exists m' rf', exec_store st m maxpa (I vs3) = Some {| o_vs := {| regs := regs st; cfg := set_vstart c 0 |}; o_mem := m'; o_trap := None |} /\
    exec_load {| regs := rf2; cfg := set_vstart c 0 |} m' maxpa (I vd) =
      Some {| o_vs := {| regs := rf'; cfg := set_vstart c 0 |}; o_mem := m'; o_trap := None |} /\
    forall i f, 0 <= i < vl c -> mask_of (vlenb c) (regs st) vm i = true -> 0 <= f < n ->
      elem (vlenb c) rf' (vd + f * g) w i = elem (vlenb c) (regs st) (vs3 + f * g) w i.
Proof.
  intros st m maxpa n w vs3 vd b vm rf2 c g I Hbm Hbr HL3 HLd Hs Hv Hg Hr3 Hrd Hb0 Hb64 Hmx Hmask.
  pose proof HL3 as (HC & HG & Hnf & _). unfold data_width in HG. cbn [am ew I nf] in HG, Hnf.
  destruct (w_facts _ _ _ _ w HC (proj1 HG)) as (Hw & Hvb & He & _).
  assert (forall i f, 0 <= i < vl c -> 0 <= f < n -> 0 <= b + i * (n * w) + f * w /\ b + i * (n * w) + f * w + w <= b + n * vl c * w) as HA.
  { intros i f Hi Hf. replace (b + i * (n * w) + f * w) with (b + (i * n + f) * w) by ring.
    assert (0 <= i * n + f /\ i * n + f + 1 <= n * vl c) as (A & B) by nia.
    set (x := i * n + f) in *. clearbody x. set (y := n * vl c) in *. clearbody y. clear - A B Hw Hb0. nia. }
  assert (forall rf r, in_space 64 (vlenb c) w 0 (vl c) rf (I r)) as Hsp by (intros; left; reflexivity).
  assert (forall rf r, reachable 64 (vlenb c) w 0 (vl c) maxpa rf (I r)) as Hre.
  { intros rf r i f (Hi & Hf). cbn [nf I] in Hf. unfold addr, raw_addr, seg_offset. cbn [am base I nf]. specialize (HA i f Hi Hf).
    rewrite Z.mod_small by lia. lia. }
  assert (exists m', exec_store st m maxpa (I vs3) = Some {| o_vs := {| regs := regs st; cfg := set_vstart c 0 |}; o_mem := m'; o_trap := None |} /\
    store_spec (vlenb c) g w n vs3 (vl c) (act (vlenb c) 0 (vl c) (regs st) (I vs3)) (addr 64 (vlenb c) w (regs st) (I vs3)) (regs st) m m') as (m' & E & HS).
  { destruct (Z.eq_dec n 1) as [Hn1|].
    - destruct (vstore1_ok 64 st m maxpa (I vs3)) as (m' & E & L); try assumption; try exact Logic.I; try apply Hsp; try apply Hre.
      exists m'. split; [exact E|]. fold c in L. rewrite Hs in L. exact L.
    - destruct (vstore_seg_ok 64 st m maxpa (I vs3)) as (m' & E & L); try assumption; try exact Logic.I; try apply Hsp; try apply Hre.
      { cbn [nf I]. lia. }
      exists m'. split; [exact E|]. fold c in L. rewrite Hs in L. exact L. }
  assert (byte_mem m') as Hbm'.
  { intros x. rewrite HS. apply store_list_bytes. exact Hbm. }
  set (st2 := {| regs := rf2; cfg := set_vstart c 0 |}).
  assert (exists rf', exec_load st2 m' maxpa (I vd) = Some {| o_vs := {| regs := rf'; cfg := set_vstart c 0 |}; o_mem := m'; o_trap := None |} /\
    load_spec (vlenb c) g w n vd (fun i => act (vlenb c) 0 (vl c) rf2 (I vd) i = true) (addr 64 (vlenb c) w rf2 (I vd)) m' rf2 rf') as (rf' & E2 & HLd2).
  { destruct (Z.eq_dec n 1) as [Hn1|Hn1].
    - destruct (vload1_ok 64 st2 m' maxpa (I vd)) as (rf' & E2 & L); try assumption; try exact Logic.I; try apply Hsp; try apply Hre.
      { cbn [cfg st2 set_vstart vstart vl]. lia. } { reflexivity. }
      exists rf'. split; [exact E2|]. exact L.
    - destruct (vload_seg_ok 64 st2 m' maxpa (I vd)) as (rf' & E2 & L); try assumption; try exact Logic.I; try apply Hsp; try apply Hre; try reflexivity.
      { cbn [nf I]. lia. } { destruct Hg as [Hg|Hg]; [lia|exact Hg]. }
      exists rf'. split; [exact E2|]. exact L. }
  exists m', rf'. split; [exact E|]. split; [exact E2|]. intros i f Hi Hm Hf. destruct HLd2 as (L1 & _).
  rewrite L1; [|exact Hf|].
  - unfold addr, raw_addr, seg_offset. cbn [am base I nf].
    apply (store_spec_read (vlenb c) g w n vs3 (vl c) (act (vlenb c) 0 (vl c) (regs st) (I vs3)) b (regs st) m m'); try assumption; try lia.
    apply act_iff. cbn [VmemSpec.vm I]. split; [lia|exact Hm].
  - apply act_iff. cbn [VmemSpec.vm I]. split; [lia|]. rewrite Hmask by exact Hi. exact Hm.
Qed.
Print Assumptions segment_round_trip_partial.

(** C68.  vlm.v loads the ceil(vl/8) bytes of a mask, from byte vstart on; nothing else changes.  Missing: 0 < vstart <
    ceil(vl/8) (refuted below) and RV32 wrap-around. *)
Theorem mask_load_partial : forall xlen st m maxpa base vd,
  let c := cfg st in let n := mask_bytes (vl c) in
  byte_mem m -> config (vlenb c) (sew c) (lmul8 c) (vl c) -> vstart c = 0 \/ n <= vstart c ->
  xlen = 64 \/ (xlen = 32 /\ forall i, vstart c <= i < n -> 0 <= base + i < 2 ^ xlen) ->
  (forall i, vstart c <= i < n -> (base + i) mod 2 ^ xlen <= maxpa) ->
  exists rf', vlm st m maxpa base vd = Some {| o_vs := {| regs := rf'; cfg := set_vstart c 0 |}; o_mem := m; o_trap := None |} /\
    load_spec (vlenb c) 1 1 1 vd (fun i => vstart c <= i < n) (fun i _ => (base + i) mod 2 ^ xlen) m (regs st) rf'.
Proof. exact vlm_ok. Qed.
Print Assumptions mask_load_partial.
Example mask_load_example : let st := demo_w [2 ^ 64 - 1; 0] 1 8 13 0 in config 16 1 8 13 /\ mask_bytes 13 = 2 /\
  exists o, vlm st ramp 1000 260 0 = Some o /\ map (elem 16 (regs (o_vs o)) 0 1) (zrange 4) = [4; 5; 255; 255].
Proof. split; [apply demo_config; cbn; auto 10; lia|]. split; [reflexivity|]. apply some_prop. vm_compute. reflexivity. Qed.
Theorem mask_load_refuted : exists st m base vd, config 16 (sew (cfg st)) (lmul8 (cfg st)) (vl (cfg st)) /\ vstart (cfg st) = 1 /\ mask_bytes (vl (cfg st)) = 2 /\
  exists o, vlm st m (2 ^ 64 - 1) base vd = Some o /\ o_trap o = None /\ elem 16 (regs (o_vs o)) vd 1 1 = 0 /\ m (base + 1) = 5.
Proof.
  exists (demo_w [] 1 8 13 1), ramp, 260, 4. split; [apply demo_config; cbn; auto 10; lia|]. do 2 (split; [reflexivity|]).
  apply some_prop. vm_compute. repeat split; reflexivity.
Qed.
Print Assumptions mask_load_refuted.

(** C68.  vsm.v stores the ceil(vl/8) bytes of a mask, from byte vstart on, for every vstart; missing: RV32
    wrap-around. *)
Theorem mask_store_partial : forall xlen st m maxpa base vs3,
  let c := cfg st in let n := mask_bytes (vl c) in
  config (vlenb c) (sew c) (lmul8 c) (vl c) -> 0 <= vstart c ->
  xlen = 64 \/ (xlen = 32 /\ forall i, vstart c <= i < n -> 0 <= base + i < 2 ^ xlen) ->
  (forall i, vstart c <= i < n -> (base + i) mod 2 ^ xlen <= maxpa) ->
  exists m', vsm st m maxpa base vs3 = Some {| o_vs := {| regs := regs st; cfg := set_vstart c 0 |}; o_mem := m'; o_trap := None |} /\
    store_spec (vlenb c) 1 1 1 vs3 n (fun i => vstart c <=? i) (fun i _ => (base + i) mod 2 ^ xlen) (regs st) m m'.
Proof. exact vsm_ok. Qed.
Print Assumptions mask_store_partial.
Example mask_store_example : let st := demo_w [0; 0; 0; 0; 1 + 256 * 2 + 65536 * 3; 0] 1 8 16 1 in config 16 1 8 16 /\
  exists o, vsm st (fun _ => 9) 1000 260 2 = Some o /\ map (o_mem o) [260; 261; 262] = [9; 2; 9].
Proof. split; [apply demo_config; cbn; auto 10; lia|]. apply some_prop. vm_compute. reflexivity. Qed.

(** C68.  Whole-register loads and stores copy nr * VLEN/8 consecutive bytes, in both directions, and nothing else,
    whatever vl, SEW and LMUL are.  Missing: the loads ignore vstart (here the bytes are those of vstart = 0) - refuted below -
    and regions that pass the top of the 64-bit address space. *)
Theorem whole_register_load_partial : forall st m maxpa nr w base vd,
  let c := cfg st in
  byte_mem m -> byte_mem (regs st) -> config (vlenb c) (sew c) (lmul8 c) (vl c) -> In nr [1; 2; 4; 8] -> In w [1; 2; 4; 8] ->
  0 <= vd -> vd + nr <= 32 -> vd mod nr = 0 ->
  0 <= base -> base + nr * vlenb c <= 2 ^ 64 -> base + nr * vlenb c <= maxpa + 1 ->
  exists rf', vl_register st m maxpa nr w base vd = Some {| o_vs := {| regs := rf'; cfg := set_vstart c 0 |}; o_mem := m; o_trap := None |} /\
    (forall k, 0 <= k < nr * vlenb c -> rf' (vd * vlenb c + k) = m (base + k)) /\
    (forall b, ~ vd * vlenb c <= b < (vd + nr) * vlenb c -> rf' b = regs st b).
Proof. exact vl_register_ok. Qed.
Print Assumptions whole_register_load_partial.
Theorem whole_register_store : forall st m maxpa nr base vs3,
  let c := cfg st in
  byte_mem m -> byte_mem (regs st) -> config (vlenb c) (sew c) (lmul8 c) (vl c) -> In nr [1; 2; 4; 8] ->
  0 <= vs3 -> vs3 + nr <= 32 -> vs3 mod nr = 0 ->
  0 <= base -> base + nr * vlenb c <= 2 ^ 64 -> base + nr * vlenb c <= maxpa + 1 ->
  exists m', vs_register st m maxpa nr base vs3 = Some {| o_vs := {| regs := regs st; cfg := set_vstart c 0 |}; o_mem := m'; o_trap := None |} /\
    (forall k, 0 <= k < nr * vlenb c -> m' (base + k) = regs st (vs3 * vlenb c + k)) /\
    (forall b, ~ base <= b < base + nr * vlenb c -> m' b = m b).
Proof. exact vs_register_ok. Qed.
Print Assumptions whole_register_store.
Example whole_register_example : let st := demo_w [0; 0; 0; 0; 770] 1 8 0 0 in config 16 1 8 0 /\
  (exists o, vl_register st ramp 1000 2 4 256 4 = Some o /\ map (regs (o_vs o)) [63; 64; 65; 95; 96] = [0; 0; 1; 31; 0]) /\
  (exists o, vs_register st (fun _ => 9) 1000 1 256 2 = Some o /\ map (o_mem o) [255; 256; 257; 258; 272] = [9; 2; 3; 0; 9]).
Proof. split; [apply demo_config; cbn; auto 10; lia|]. split; apply some_prop; vm_compute; reflexivity. Qed.
(** A whole-register load resumed at element 1 overwrites element 0. *)
Theorem whole_register_load_refuted : exists st m base vd, config 16 (sew (cfg st)) (lmul8 (cfg st)) (vl (cfg st)) /\ vstart (cfg st) = 1 /\
  elem 16 (regs st) vd 1 0 = 7 /\
  exists o, vl_register st m (2 ^ 64 - 1) 1 1 base vd = Some o /\ o_trap o = None /\ elem 16 (regs (o_vs o)) vd 1 0 = 4.
Proof.
  exists (demo_w [0; 0; 7; 0] 1 8 13 1), ramp, 260, 1. split; [apply demo_config; cbn; auto 10; lia|]. do 2 (split; [reflexivity|]).
  apply some_prop. vm_compute. split; reflexivity.
Qed.
Print Assumptions whole_register_load_refuted.

(** C69.  If the address of some body element is above the highest physical address, a load or store (one field) raises an access
    fault (cause 5 or 7) with the first such address as trap value, and changes neither registers nor memory.
    Missing (refuted below): masked-off elements fault too, and vstart is reset to 0 instead of being set to the index of the
    faulting element. *)
Theorem vload_fault_partial : forall xlen st m maxpa I,
  let c := cfg st in let w := data_width (sew c) I in let a i := addr xlen (vlenb c) w (regs st) I i 0 in
  legal_mem (vlenb c) (sew c) (lmul8 c) (vl c) I -> nf I = 1 -> 0 <= vstart c ->
  stride_ok (vstart c) (vl c) I -> in_space xlen (vlenb c) w (vstart c) (vl c) (regs st) I ->
  (exists i, vstart c <= i < vl c /\ maxpa < a i) ->
  exists i, vstart c <= i < vl c /\ maxpa < a i /\ (forall j, vstart c <= j < i -> a j <= maxpa) /\
    exec_load st m maxpa I = Some {| o_vs := {| regs := regs st; cfg := set_vstart c 0 |}; o_mem := m; o_trap := Some (5, a i) |}.
Proof. exact vload1_fault. Qed.
Print Assumptions vload_fault_partial.
Theorem vstore_fault_partial : forall xlen st m maxpa I,
  let c := cfg st in let w := data_width (sew c) I in let a i := addr xlen (vlenb c) w (regs st) I i 0 in
  legal_mem (vlenb c) (sew c) (lmul8 c) (vl c) I -> nf I = 1 -> vstart c = 0 ->
  stride_ok 0 (vl c) I -> in_space xlen (vlenb c) w 0 (vl c) (regs st) I ->
  (exists i, 0 <= i < vl c /\ maxpa < a i) ->
  exists i, 0 <= i < vl c /\ maxpa < a i /\ (forall j, 0 <= j < i -> a j <= maxpa) /\
    exec_store st m maxpa I = Some {| o_vs := {| regs := regs st; cfg := set_vstart c 0 |}; o_mem := m; o_trap := Some (7, a i) |}.
Proof.
  intros xlen st m maxpa I c w a HL H1 Hs Hst Hsp Hx. destruct (vstore1_fault xlen st m maxpa I HL H1 Hs Hst Hsp Hx) as (i & A & B & C & D).
  fold c in A, C. rewrite Hs in A, C. exists i. auto.
Qed.
Print Assumptions vstore_fault_partial.
Theorem segment_load_fault_partial : forall xlen st m maxpa I,
  let c := cfg st in let w := data_width (sew c) I in let a := addr xlen (vlenb c) w (regs st) I in
  legal_mem (vlenb c) (sew c) (lmul8 c) (vl c) I -> 2 <= nf I -> vstart c = 0 -> stride_ok 0 (vl c) I ->
  in_space xlen (vlenb c) w 0 (vl c) (regs st) I ->
  (exists i f, body 0 (vl c) I i f /\ maxpa < a i f) ->
  exists i f, body 0 (vl c) I i f /\ maxpa < a i f /\
    exec_load st m maxpa I = Some {| o_vs := {| regs := regs st; cfg := set_vstart c 0 |}; o_mem := m; o_trap := Some (5, a i f) |}.
Proof. exact vload_seg_fault. Qed.
Print Assumptions segment_load_fault_partial.
Example vload_fault_example : let st := demo_w [] 4 8 4 0 in let I := vle32 4 992 true in legal_at st I /\ 1000 < addr 64 16 4 (regs st) I 3 0 /\
  exists o, exec_load st ramp 1000 I = Some o /\ o_trap o = Some (5, 1004).
Proof.
  split; [apply legal_gen; [cbn; auto|cbn; auto 10|cbn; lia|reflexivity]|]. split; [vm_compute; reflexivity|]. apply some_prop. vm_compute. reflexivity.
Qed.
(** A load whose only active element is reachable faults because of a masked-off one; a load that faults at element 3 leaves
    vstart = 0. *)
Theorem vector_fault_refuted :
  (exists st I, legal_at st I /\ nf I = 1 /\ am I = Unit /\ vstart (cfg st) = 0 /\
     (forall i, act 16 0 (vl (cfg st)) (regs st) I i = true -> addr 64 16 4 (regs st) I i 0 <= 1000) /\
     exists o, exec_load st ramp 1000 I = Some o /\ o_trap o = Some (5, 1004)) /\
  (exists st I, legal_at st I /\ nf I = 1 /\ am I = Unit /\ vm I = true /\ vstart (cfg st) = 0 /\
     (forall i, 0 <= i < 3 -> addr 64 16 4 (regs st) I i 0 <= 1000) /\
     exists o, exec_load st ramp 1000 I = Some o /\ o_trap o = Some (5, addr 64 16 4 (regs st) I 3 0) /\ vstart (cfg (o_vs o)) = 0).
Proof.
  split.
  - exists (demo_w [1; 0] 4 8 4 0), (vle32 4 992 false). split; [apply legal_gen; [cbn; auto|cbn; auto 10|cbn; lia|reflexivity]|].
    do 3 (split; [reflexivity|]). split.
    + intros i Hi. apply act_iff in Hi. destruct Hi as (Hi & Hm). change (vl (cfg (demo_w [1; 0] 4 8 4 0))) with 4 in Hi.
      assert (i = 0 \/ i = 1 \/ i = 2 \/ i = 3) as [->|[->|[->| ->]]] by lia; [vm_compute; discriminate| | |]; vm_compute in Hm; discriminate.
    + apply some_prop. vm_compute. reflexivity.
  - exists (demo_w [] 4 8 4 0), (vle32 4 992 true). split; [apply legal_gen; [cbn; auto|cbn; auto 10|cbn; lia|reflexivity]|].
    do 4 (split; [reflexivity|]). split.
    + intros i Hi. assert (i = 0 \/ i = 1 \/ i = 2) as [->|[->| ->]] by lia; vm_compute; discriminate.
    + apply some_prop. vm_compute. split; reflexivity.
Qed.
Print Assumptions vector_fault_refuted.
