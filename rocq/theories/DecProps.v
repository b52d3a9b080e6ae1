(** C61-C63: the decode tables against the RISC-V manuals. *)
From Coq Require Import ZArith List String Bool Lia.
From Verif Require Import Bits FmtSpec FmtModel DecSpec DecManual DecModel DecCheck DecProofs DecTables.
Import ListNotations.
Local Open Scope string_scope.
Local Open Scope Z_scope.

(** The specification is consistent: no word is two instructions of a decoder's manual. *)
Theorem manual_consistent : forall D rows, In (D, rows) decoders -> consistent D.
Proof. intros D rows H. exact (proj2 (proj2 (all_facts D rows H))). Qed.
Print Assumptions manual_consistent.

(** * C61: whichever matching row the decoder picks, the instruction is the same *)
Theorem decode_unambiguous : forall D rows, In (D, rows) (exact_decoders ++ sound_decoders ++ loose_decoders)%list ->
  unambiguous D (decodes rows).
Proof. intros D rows H. exact (proj1 (strict_facts D rows H)). Qed.
Print Assumptions decode_unambiguous.
(** For RVM23 outside the listed words. *)
Theorem decode_unambiguous_partial : forall D rows, In (D, rows) rvm23_decoders -> unambiguous_but D (decodes rows).
Proof. intros D rows H. exact (proj1 (rvm23_facts D rows H)). Qed.
Print Assumptions decode_unambiguous_partial.
(** csrrw x0, 0x820, x0 may be decoded as mop.rr.0, fence.i as pause, c.mop.1 as c.lui x1, 0. *)
Theorem decode_unambiguous_refuted :
  ~ unambiguous s_RVM23Inst32 (decodes d_RVM23Inst32) /\ ~ unambiguous s_RVM23Inst16 (decodes d_RVM23Inst16) /\
  decodes d_RVM23Inst32 0x82001073 "csrrw_nr" /\ decodes d_RVM23Inst32 0x82001073 "mop_rr_0" /\
  decodes d_RVM23Inst32 0x0100100f "fencei" /\ decodes d_RVM23Inst32 0x0100100f "pause" /\
  decodes d_RVM23Inst16 0x6081 "clui" /\ decodes d_RVM23Inst16 0x6081 "c_mop_1".
Proof.
  assert (DC : forall rows w o, existsb (fun r => String.eqb (r_name r) o && applies r w) rows = true -> decodes rows w o).
  { intros rows w o H. apply existsb_exists in H. destruct H as (r & Hr & E). apply andb_true_iff in E.
    rewrite String.eqb_eq in E. exists r. tauto. }
  assert (A1 : decodes d_RVM23Inst32 0x82001073 "csrrw_nr") by (apply DC; vm_compute; reflexivity).
  assert (A2 : decodes d_RVM23Inst32 0x82001073 "mop_rr_0") by (apply DC; vm_compute; reflexivity).
  assert (A3 : decodes d_RVM23Inst32 0x0100100f "fencei") by (apply DC; vm_compute; reflexivity).
  assert (A4 : decodes d_RVM23Inst32 0x0100100f "pause") by (apply DC; vm_compute; reflexivity).
  assert (A5 : decodes d_RVM23Inst16 0x6081 "clui") by (apply DC; vm_compute; reflexivity).
  assert (A6 : decodes d_RVM23Inst16 0x6081 "c_mop_1") by (apply DC; vm_compute; reflexivity).
  split; [| split; [| tauto]].
  - intros U. destruct (U 0x82001073 _ _ ltac:(cbn; lia) A1 A2) as [E | (e & He & Me & _ & H2)]; [discriminate |].
    destruct (extra_at_ok s_RVM23Inst32 d_RVM23Inst32 "mop_rr_0" 0x82001073) as (_ & _ & N);
      [exact (proj1 (proj2 (proj2 f_RVM23Inst32))) | vm_compute; reflexivity |].
    apply N. exists e. tauto.
  - intros U. destruct (U 0x6081 _ _ ltac:(cbn; lia) A5 A6) as [E | (e & He & Me & H1 & _)]; [discriminate |].
    destruct (extra_at_ok s_RVM23Inst16 d_RVM23Inst16 "clui" 0x6081) as (_ & _ & N);
      [exact (proj1 (proj2 (proj2 f_RVM23Inst16))) | vm_compute; reflexivity |].
    apply N. exists e. tauto.
Qed.
Print Assumptions decode_unambiguous_refuted.
(** slli x0, x0, 0x1f: the rows that apply in the RV32 decoder all stand for slli. *)
Example decode_overlap :
  map r_name (filter (fun r => applies r 0x01f01013) d_RiscV32G) = ["slli"; "slli_semihost"] /\
  In "slli_semihost" (opcodes (nth 24 m_I32 (ent "" [] []))) /\ In "slli" (opcodes (nth 24 m_I32 (ent "" [] []))).
Proof. vm_compute. tauto. Qed.

(** * C62: every instruction of the manual is decoded as that instruction *)
Theorem decode_complete : forall D rows, In (D, rows) exact_decoders -> complete D (decodes rows).
Proof.
  intros D rows H w e Hw He Me.
  assert (HD : In (D, rows) decoders) by (unfold decoders; apply in_app_iff; left; exact H).
  apply (proj1 (all_facts D rows HD) w e Hw He Me). intros (g & Hg & _).
  cbn [exact_decoders] in H. each H; destruct Hg.
Qed.
Print Assumptions decode_complete.
(** All fifteen, with the exact list of words not so decoded ([ds_missing] in DecManual.v). *)
Theorem decode_complete_partial : forall D rows, In (D, rows) decoders -> complete_but D (decodes rows).
Proof. intros D rows H. exact (proj1 (all_facts D rows H)). Qed.
Print Assumptions decode_complete_partial.
(** A witness per decoder: what instruction at which word. *)
Definition missing_witnesses : list (decoder_spec * list row * string * Z) :=
  [(s_RiscV32G, d_RiscV32G, "add", 0x00200033);          (* add x0, x0, x2 *)
   (s_RiscV64G, d_RiscV64G, "csrrw", 0xc00090f3);        (* csrrw x1, cycle, x1 *)
   (s_RiscV64C, d_RiscV64C, "c.srli", 0x8001);           (* c.srli x8, 0 *)
   (s_RiscV32GZB, d_RiscV32GZB, "fence", 0x1330000f);    (* fence with a reserved fm *)
   (s_RiscV32C, d_RiscV32C, "c.slli", 0x0002);           (* c.slli x0, 0 *)
   (s_RiscV64GZB, d_RiscV64GZB, "rev8", 0x6b815093);     (* rev8 x1, x2 *)
   (s_RiscV32GV, d_RiscV32GV, "vlseg<nf>e8ff.v", 0x23050007);
   (s_RiscV64GV, d_RiscV64GV, "vlseg<nf>e32ff.v", 0x23056007);
   (s_RiscV32GVZB, d_RiscV32GVZB, "rori", 0x60215093);   (* rori x1, x2, 2 *)
   (s_RiscV64GVZB, d_RiscV64GVZB, "bseti", 0x28211093);  (* bseti x1, x2, 2 *)
   (s_RVM23Inst32, d_RVM23Inst32, "zext.h", 0x080140b3); (* zext.h x1, x2 *)
   (s_RVM23Inst16, d_RVM23Inst16, "c.unimp", 0x0000)].
Theorem decode_complete_refuted :
  map fst (map fst missing_witnesses) = (sound_decoders ++ loose_decoders ++ rvm23_decoders)%list /\
  forall D rows m w, In (D, rows, m, w) missing_witnesses ->
    0 <= w < 2 ^ ds_width D /\ ~ complete D (decodes rows) /\
    exists e, mnemonic e = m /\ In e (ds_manual D) /\ means e w /\ forall o, In o (opcodes e) -> ~ decodes rows w o.
Proof.
  split; [reflexivity |]. intros D rows m w H.
  assert (HD : In (D, rows) decoders).
  { unfold decoders. apply in_app_iff. right. change (sound_decoders ++ loose_decoders ++ rvm23_decoders)%list with (map fst (map fst missing_witnesses)).
    apply in_map_iff. exists (D, rows, m). split; [reflexivity |]. apply in_map_iff. exists (D, rows, m, w). split; [reflexivity | exact H]. }
  assert (M : missing_at D m w = true).
  { revert H. cut (forallb (fun t => missing_at (fst (fst (fst t))) (snd (fst t)) (snd t)) missing_witnesses = true).
    - intros F H. rewrite forallb_forall in F. exact (F _ H).
    - vm_compute. reflexivity. }
  destruct (missing_at_ok D rows m w (proj1 (all_facts D rows HD)) M) as (e & E1 & R & E2 & E3 & E4).
  split; [exact R |]. split.
  - intros C. destruct (C w e R E2 E3) as (o & Ho & Hd). exact (E4 o Ho Hd).
  - exists e. repeat split; assumption.
Qed.
Print Assumptions decode_complete_refuted.

(** * C63: every word decoded is that instruction in the manual *)
Theorem decode_sound : forall D rows, In (D, rows) (exact_decoders ++ sound_decoders)%list -> sound D (decodes rows).
Proof.
  intros D rows H w o Hw A.
  assert (HD : In (D, rows) decoders) by (unfold decoders; rewrite !in_app_iff in *; tauto).
  apply (proj1 (proj2 (all_facts D rows HD)) w o Hw A). intros (g & Hg & _).
  cbn [exact_decoders sound_decoders app] in H. each H; destruct Hg.
Qed.
Print Assumptions decode_sound.
(** All fifteen, with the exact list of words wrongly accepted ([ds_extra] in DecManual.v). *)
Theorem decode_sound_partial : forall D rows, In (D, rows) decoders -> sound_but D (decodes rows).
Proof. intros D rows H. exact (proj1 (proj2 (all_facts D rows H))). Qed.
Print Assumptions decode_sound_partial.
Definition extra_witnesses : list (decoder_spec * list row * string * Z) :=
  [(s_RiscV32C, d_RiscV32C, "clui", 0x6081);              (* c.lui x1, 0: reserved *)
   (s_RiscV64GZB, d_RiscV64GZB, "rev8", 0x69815093);      (* the RV32 encoding of rev8 *)
   (s_RiscV32GV, d_RiscV32GV, "vse8ff", 0x03050027);      (* a fault-only-first store *)
   (s_RiscV64GV, d_RiscV64GV, "vwmaccus_vv", 0xfa212057); (* only vwmaccus.vx exists *)
   (s_RiscV32GVZB, d_RiscV32GVZB, "vmand_vv", 0x64212057);(* a masked mask-register instruction *)
   (s_RiscV64GVZB, d_RiscV64GVZB, "bseti", 0x2821109b);   (* in the opcode space of addiw *)
   (s_RVM23Inst32, d_RVM23Inst32, "mop_rr_0", 0x82001073);(* csrrw x0, 0x820, x0 *)
   (s_RVM23Inst16, d_RVM23Inst16, "clui", 0x6081)].       (* c.mop.1 *)
Theorem decode_sound_refuted :
  map fst (map fst extra_witnesses) = (loose_decoders ++ rvm23_decoders)%list /\
  forall D rows o w, In (D, rows, o, w) extra_witnesses ->
    0 <= w < 2 ^ ds_width D /\ ~ sound D (decodes rows) /\ decodes rows w o /\ ~ covered D w o.
Proof.
  split; [reflexivity |]. intros D rows o w H.
  assert (HD : In (D, rows) decoders).
  { unfold decoders. apply in_app_iff. right. apply in_app_iff. right.
    change (loose_decoders ++ rvm23_decoders)%list with (map fst (map fst extra_witnesses)).
    apply in_map_iff. exists (D, rows, o). split; [reflexivity |]. apply in_map_iff. exists (D, rows, o, w). split; [reflexivity | exact H]. }
  assert (M : extra_at D rows o w = true).
  { revert H. cut (forallb (fun t => extra_at (fst (fst (fst t))) (snd (fst (fst t))) (snd (fst t)) (snd t)) extra_witnesses = true).
    - intros F H. rewrite forallb_forall in F. exact (F _ H).
    - vm_compute. reflexivity. }
  destruct (extra_at_ok D rows o w (proj1 (proj2 (all_facts D rows HD))) M) as (R & E1 & E2).
  split; [exact R |]. split; [intros S; exact (E2 (S w o R E1)) | split; assumption].
Qed.
Print Assumptions decode_sound_refuted.

(** Ordinary words: decoded, and as what the manual says. *)
Example decode_words :
  map (fun w => map r_name (filter (fun r => applies r w) d_RiscV32G)) [0x003100b3; 0xfe5ff06f; 0x0ff0000f; 0x30200073; 0; 0xffffffff]
  = [["add"]; ["j"]; ["fence"]; ["mret"]; []; []] /\
  forallb (fun me => Nat.eqb (List.length (filter (fun e => forallb (holdsb (fst me)) (encoding e)) (ds_manual s_RiscV32G))) (snd me))
    [(0x003100b3, 1%nat); (0xfe5ff06f, 1%nat); (0, 0%nat); (0xffffffff, 0%nat)] = true.
Proof. split; vm_compute; reflexivity. Qed.
