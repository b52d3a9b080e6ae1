(** Proof device for C91, C92: a boolean comparison of the rows of the simulators' tables with the system instructions
    of MachSpec.v. *)
From Coq Require Import ZArith List String Bool Lia.
From Verif Require Import Bits FmtSpec FmtModel FmtProofs DecSpec DecManual DecModel DecCheck DecProofs DecTables DecProps IntSpec
  Memory AccessSpec StepSpec StepModel StepCheck StepProofs StepTables MachSpec MachModel.
Import ListNotations.
Local Open Scope string_scope.
Local Open Scope Z_scope.

(** A constraint of the row makes the operand nonzero. *)
Definition nonzero_row (r : row) (o : operand) : bool :=
  existsb (fun c => match c with CVal f RNe v => (v =? 0) && agrees o (r_fmt r) f | _ => false end) (r_cons r).
(** The row is for one CSR only, not one of those described. *)
Definition other_csr (r : row) : bool :=
  existsb (fun c => match c with
                    | CVal f REq v => agrees o_csr (r_fmt r) f && match csr_name v with None => true | _ => false end
                    | _ => false end) (r_cons r).
Definition sys_opd (S : simulator) (short : bool) (ir : irow) (k : nat) (p : opd) : bool :=
  match sys_src S (i_src ir) k with Some s => src_ok short s p | None => false end.
Definition kind_fn (k : csr_kind) : sysfn := match k with KWrite => FCsrrw | KSet => FCsrrs | KClear => FCsrrc end.
Definition sys_row_ok (S : simulator) (short : bool) (r : row) (ir : irow) (y : sysi) : bool :=
  (i_size ir =? (if short then 2 else 4)) &&
  match assoc sysfns (i_sem ir), y with
  | Some FEcall, YEcall | Some FEbreak, YEbreak | Some FMret, YMret | Some FSret, YSret | Some FWfi, YWfi => true
  | Some FCsrrw, YCsr KWrite v => negb short && sys_opd S short ir 1 (Imm o_csr) && sys_opd S short ir 0 v && is_dst S short r ir 0 (Rd o_rd)
  | Some FCsrrs, YCsr KSet v => negb short && sys_opd S short ir 1 (Imm o_csr) && sys_opd S short ir 0 v && is_dst S short r ir 0 (Rd o_rd) &&
      nonzero_row r o_rs1
  | Some FCsrrc, YCsr KClear v => negb short && sys_opd S short ir 1 (Imm o_csr) && sys_opd S short ir 0 v && is_dst S short r ir 0 (Rd o_rd) &&
      nonzero_row r o_rs1
  | Some FCsrrwNr, YCsr KWrite v => negb short && sys_opd S short ir 1 (Imm o_csr) && sys_opd S short ir 0 v && zero_row r o_rd
  | Some FCsrrNw, YCsr k v => negb short && sys_opd S short ir 0 (Imm o_csr) && opd_encodable v && is_dst S short r ir 0 (Rd o_rd) && zero_row r o_rs1 &&
      match k with KWrite => false | _ => true end
  | _, _ => false
  end.
Definition sys_entry_ok (S : simulator) (short : bool) (D : decoder_spec) (rows : list row) (e : entry) (y : sysi) : bool :=
  let ops := related D e in
  forallb (fun r =>
    if existsb (String.eqb (r_name r)) ops then
      match y with YCsr _ _ => other_csr r | _ => false end ||
      match find (fun ir => String.eqb (i_name ir) (r_name r)) sys_isa with
      | Some ir => sys_row_ok S short r ir y
      | None => false end
    else true) rows.
Definition sys_table_ok (S : simulator) (short : bool) (D : decoder_spec) (rows : list row) : bool :=
  forallb (fun e => match sys_semantics (mnemonic e) with
                    | Some y => sys_entry_ok S short D rows e y
                    | None => true end) (ds_manual D).
(** No instruction of StepModel.v is one of these. *)
Definition apart (S : simulator) : bool :=
  forallb (fun ir => match find (fun r => String.eqb (i_name r) (i_name ir)) sys_isa with None => true | Some _ => false end) (s_isa S).
Definition sys_ok (I : implementation) : bool :=
  sys_table_ok (im_sim I) false (im_32 I) (s_rows32 (im_sim I)) && sys_table_ok (im_sim I) true (im_16 I) (s_rows16 (im_sim I)) &&
  apart (im_sim I).
Lemma sys_simulators_ok : forallb sys_ok simulators = true.
Proof. vm_cast_no_check (eq_refl true). Qed.

Lemma nonzero_row_ok r o w : nonzero_row r o = true -> applies r w = true -> exists n, encodes o w n /\ n <> 0.
Proof.
  unfold nonzero_row, applies. rewrite existsb_exists, forallb_forall. intros (c & Hc & E) A. specialize (A c Hc).
  destruct c as [f [] v |]; try discriminate E. apply andb_true_iff in E. destruct E as [E G].
  apply Z.eqb_eq in E. subst. cbn in A. apply negb_true_iff, Z.eqb_neq in A. exists (extract (r_fmt r) f w).
  split; [apply extract_encodes, G | exact A].
Qed.
Lemma other_csr_ok r w n c : other_csr r = true -> applies r w = true -> encodes o_csr w n -> csr_name n = Some c -> False.
Proof.
  unfold other_csr, applies. rewrite existsb_exists, forallb_forall. intros (k & Hc & E) A EN NM. specialize (A k Hc).
  destruct k as [f [] v |]; try discriminate E. apply andb_true_iff in E. destruct E as [G E].
  cbn in A. apply Z.eqb_eq in A.
  rewrite (encodes_unique_lemma o_csr (r_fmt r) f w n _ G EN (extract_encodes o_csr _ f w G)), A in NM.
  rewrite NM in E. discriminate E.
Qed.
Lemma csr_unique w n n' : encodes o_csr w n -> encodes o_csr w n' -> n = n'.
Proof. apply (encodes_unique_lemma o_csr f_IType "u_imm12"). vm_compute. reflexivity. Qed.
Lemma rs1_bits w n : encodes o_rs1 w n -> n = bits w (19, 15).
Proof.
  intros E. apply (encodes_unique_lemma o_rs1 f_IType "rs1" w); [vm_compute; reflexivity | exact E |].
  unfold bits. cbn [fst snd]. change (19 - 15 + 1) with 5. split.
  - split; [exact (Z.mod_pos_bound (w / 2 ^ 15) (2 ^ 5) eq_refl) | intros i b []].
  - intros s [<- | []] j Hj. cbn in Hj. cbn [sg_at sg_lo o_rs1 un]. rewrite Z.mod_pow2_bits_low by lia.
    rewrite Z.div_pow2_bits by lia. f_equal. lia.
Qed.
Lemma csr_range w n : encodes o_csr w n -> 0 <= n < 4096.
Proof. intros [[L _] _]. exact L. Qed.
Lemma csr_no_name n : csr_no n = csr_name n.
Proof.
  unfold csr_no, csr_name. cbn [find fst]. rewrite !(Z.eqb_sym _ n).
  repeat match goal with |- context [n =? ?k] => destruct (Z.eqb_spec n k); [subst n; reflexivity |] end. reflexivity.
Qed.
Lemma csr_priv n : 0 <= n < 4096 -> Z.land (Z.shiftr n 8) 3 = n / 256 mod 4.
Proof. intros R. rewrite Z.shiftr_div_pow2 by lia. change 3 with (Z.ones 2). rewrite Z.land_ones by lia. reflexivity. Qed.

Section Word.
Variables (I : implementation) (iw : Z).
Hypothesis HI : In I simulators.
Hypothesis Hw : 0 <= iw < 2 ^ 32.
Let S := im_sim I.
Let D := im_spec I iw.
Let w := word_of iw.
Lemma sys_table_here : sys_table_ok S (negb (long iw)) D (sim_rows S iw) = true /\ apart S = true.
Proof.
  pose proof sys_simulators_ok as H. rewrite forallb_forall in H. specialize (H I HI). unfold sys_ok in H.
  apply andb_true_iff in H. destruct H as [H A]. apply andb_true_iff in H. split; [| exact A].
  unfold D, im_spec, spec_of, sim_rows. destruct (long iw); cbn [negb]; tauto.
Qed.
Lemma sys_word e y : In e (ds_manual D) -> means e w -> sys_semantics (mnemonic e) = Some y -> ~ listed (ds_missing D) (mnemonic e) w ->
  (forall k v, y = YCsr k v -> exists n c, encodes o_csr w n /\ csr_name n = Some c) ->
  (exists o, sim_decodes S iw o) /\
  forall o, sim_decodes S iw o -> exists r ir, applies r w = true /\ find (fun x => String.eqb (i_name x) o) sys_isa = Some ir /\
    sys_row_ok S (negb (long iw)) r ir y = true.
Proof.
  intros He Me Hy NM CS. destruct (word_decoder I iw HI Hw) as [DEC W].
  destruct (proj2 (decode_complete_partial D _ (word_decoders I iw HI Hw) w e W He Me) NM) as (o0 & O0 & A0).
  split; [exists o0; apply sim_decodes_eq; exact A0 |]. intros o A. apply sim_decodes_eq in A. fold w in A.
  assert (R : In o (related D e)).
  { unfold related. apply in_app_iff. destruct (decode_unambiguous D _ DEC w o0 o W A0 A) as [<- | (e' & He' & _ & B & C)].
    - left. exact O0.
    - right. apply in_concat. exists (opcodes e'). split; [| exact C]. apply in_map_iff. exists e'. split; [| exact He'].
      replace (existsb _ (opcodes e')) with true; [reflexivity |]. symmetry. apply existsb_exists. exists o0. split; [exact B |].
      apply existsb_exists. exists o0. split; [exact O0 | apply String.eqb_refl]. }
  pose proof (proj1 sys_table_here) as T. unfold sys_table_ok in T. rewrite forallb_forall in T. specialize (T e He). rewrite Hy in T.
  unfold sys_entry_ok in T. rewrite forallb_forall in T.
  destruct A as (r & Hr & AP & N). specialize (T r Hr). rewrite N in T.
  replace (existsb (String.eqb o) (related D e)) with true in T.
  2:{ symmetry. apply existsb_exists. exists o. split; [exact R | apply String.eqb_refl]. }
  apply orb_true_iff in T. destruct T as [T | T].
  - destruct y; try discriminate T. destruct (CS _ _ eq_refl) as (n & c & E & K). destruct (other_csr_ok r w n c T AP E K).
  - destruct (find _ sys_isa) as [ir |] eqn:F; [| discriminate T]. exists r, ir. auto.
Qed.
(** The instructions of StepModel.v are not system instructions. *)
Lemma not_sys lw misa max h o out : exec_opcode S lw misa max h iw o = Some out -> find (fun x => String.eqb (i_name x) o) sys_isa = None.
Proof.
  unfold exec_opcode. destruct (find _ (s_isa S)) as [ir |] eqn:F; [| discriminate]. intros _.
  apply find_some in F. destruct F as [F N]. apply String.eqb_eq in N. pose proof (proj2 sys_table_here) as A.
  unfold apart in A. rewrite forallb_forall in A. specialize (A ir F). rewrite N in A.
  destruct (find _ sys_isa); [discriminate A | reflexivity].
Qed.
End Word.
