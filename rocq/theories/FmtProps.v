(** C49: instruction operands survive encoding and decoding.
    C50: assembled operands decode to the same operands. *)
From Coq Require Import ZArith List String Bool Lia.
From Verif Require Import Bits FmtSpec FmtModel FmtLink FmtProofs.
Import ListNotations.
Local Open Scope string_scope.
Local Open Scope Z_scope.

Lemma csr_in n v : existsb (fun p => String.eqb (fst p) n && (snd p =? v)) csr_manual = true ->
  In (n, v) csr_manual.
Proof.
  intros H. apply existsb_exists in H as [[m x] [I E]]. cbn [fst snd] in E.
  apply andb_true_iff in E as [E1 E2]. apply String.eqb_eq in E1. apply Z.eqb_eq in E2.
  subst. exact I.
Qed.

(** * C49 *)

(** Whatever value an operand of any format can take (that is, whatever extraction can
    return), inserting it in any word and extracting it again returns it. *)
Theorem fmt_roundtrip : forall fm name w w0,
  In fm all_formats -> In name (operands_of fm) ->
  extract fm name (insert fm name (extract fm name w0) w) = extract fm name w0.
Proof. exact (fun fm name w w0 => image_roundtrip fm name w w0). Qed.
Print Assumptions fmt_roundtrip.

Example fmt_roundtrip_nonvacuous :
  In f_BType all_formats /\ In "b_imm" (operands_of f_BType) /\
  extract f_BType "b_imm" 0xfe0008e3 = -16 /\
  insert f_BType "b_imm" (-16) 0x00208063 = 0xfe2088e3.
Proof. vm_compute. intuition. Qed.

(** Insertion only touches the bits the operand depends on. *)
Theorem fmt_frame : forall fm name v w k,
  In fm all_formats -> In name (operands_of fm) -> 0 <= k ->
  (forall x, extract fm name (Z.lxor x (2 ^ k)) = extract fm name x) ->
  Z.testbit (insert fm name v w) k = Z.testbit w k.
Proof. exact (fun fm name v w k => semantic_frame fm name v w k). Qed.
Print Assumptions fmt_frame.

(** Insertion leaves every other field untouched and stays within the word. *)
Theorem fmt_fields : forall fm a b v w,
  In fm all_formats ->
  In a (map fd_name (fm_fields fm)) -> In b (map fd_name (fm_fields fm)) -> a <> b ->
  extract fm b (insert fm a v w) = extract fm b w.
Proof. exact (fun fm a b v w => fields_frame fm a b v w). Qed.
Print Assumptions fmt_fields.

Theorem fmt_width : forall fm name v w,
  In fm all_formats -> In name (operands_of fm) ->
  inw (fm_width fm) w -> inw (fm_width fm) (insert fm name v w).
Proof. exact (fun fm name v w => insert_in_word fm name v w). Qed.
Print Assumptions fmt_width.

Example fmt_fields_nonvacuous :
  In "imm7" (map fd_name (fm_fields f_SType)) /\ In "rs2" (map fd_name (fm_fields f_SType)) /\
  extract f_SType "rs2" (insert f_SType "imm7" 0x7f 0x00512023) = 5.
Proof. vm_compute. intuition. Qed.

(** Extraction returns the operand the manual says the word encodes ... *)
Theorem imm_extract_partial : forall o fm name w,
  In (o, fm, name) manual_fields -> encodes o w (extract fm name w).
Proof. exact (fun o fm name w H => extract_encodes o fm name w (manual_field_agrees o fm name H)). Qed.
Print Assumptions imm_extract_partial.

(** ... which is the only operand value it encodes ... *)
Theorem imm_unique_partial : forall o fm name w v v',
  In (o, fm, name) manual_fields -> encodes o w v -> encodes o w v' -> v = v'.
Proof. exact (fun o fm name w v v' H => encodes_unique_lemma o fm name w v v' (manual_field_agrees o fm name H)). Qed.
Print Assumptions imm_unique_partial.

(** ... and insertion encodes any value the manual allows, leaving all bits that do not
    carry the operand as they were. *)
Theorem imm_insert_partial : forall o fm name v w,
  In (o, fm, name) manual_fields -> legal o v ->
  encodes o (insert fm name v w) v /\
  forall k, 0 <= k -> ~ carries o k -> Z.testbit (insert fm name v w) k = Z.testbit w k.
Proof. exact (fun o fm name v w H => insert_encodes o fm name v w (manual_field_agrees o fm name H)). Qed.
Print Assumptions imm_insert_partial.

Example imm_nonvacuous :
  In (o_imm_j, f_JType, "j_imm") manual_fields /\ legal o_imm_j (-4096) /\
  encodes o_imm_j 0x800ff06f (-4096) /\ extract f_JType "j_imm" 0x800ff06f = -4096.
Proof.
  assert (extract f_JType "j_imm" 0x800ff06f = -4096) as E by (vm_compute; reflexivity).
  assert (In (o_imm_j, f_JType, "j_imm") manual_fields) as I
    by (apply (nth_error_In _ 6); reflexivity).
  pose proof (imm_extract_partial _ _ _ 0x800ff06f I) as N. rewrite E in N.
  split; [exact I|]. split; [exact (proj1 N)|]. split; [exact N|exact E].
Qed.

(** The operands the formats get wrong. *)
Theorem imm_extract_refuted : forall o fm name,
  In (o, fm, name) manual_misfits ->
  exists w, 0 <= w < 2 ^ 32 /\ ~ encodes o w (extract fm name w).
Proof.
  intros o fm name H. unfold manual_misfits in H. cbn [In] in H.
  destruct H as [H|[H|[H|[H|[H|[H|[]]]]]]]; injection H as <- <- <-.
  - exists 0x20. split; [lia|]. intros [_ S].
    specialize (S (mk_seg 5 5 1) (or_intror (or_introl eq_refl)) 0 ltac:(cbn; lia)).
    vm_compute in S. discriminate.
  - exists 0x20. split; [lia|]. intros [_ S].
    specialize (S (mk_seg 5 5 1) (or_intror (or_introl eq_refl)) 0 ltac:(cbn; lia)).
    vm_compute in S. discriminate.
  - exists 0x80000000. split; [lia|]. intros [[[_ R] _] _]. vm_compute in R. discriminate.
  - exists 0x40000000. split; [lia|]. intros [[[R _] _] _]. vm_compute in R. apply R; reflexivity.
  - exists 0x20000000. split; [lia|]. intros [[[R _] _] _]. vm_compute in R. apply R; reflexivity.
  - exists 0. split; [lia|]. intros [[_ F] _].
    specialize (F 4 false (or_introl eq_refl)). vm_compute in F. discriminate.
Qed.
Print Assumptions imm_extract_refuted.

(** The offsets of the Zcd loads and stores are read with the layout of the
    word-sized ones. *)
Theorem zcd_offsets_refuted : forall z,
  exists w, 0 <= w < 2 ^ 16 /\ ~ encodes (zcd_spec z) w (get_zcd z w).
Proof.
  intros z.
  exists (match z with ZCiUimm6x8 => 0x10 | ZClUimm5x8 => 0x40 | ZCssUimm6x8 => 0x200 end).
  split; [destruct z; lia|]. intros [[_ F] _].
  destruct z; specialize (F 2 false ltac:(cbn; tauto)).
  - vm_compute in F. discriminate.
  - vm_compute in F. discriminate.
  - vm_compute in F. discriminate.
Qed.
Print Assumptions zcd_offsets_refuted.

(** * C50 *)

(** The decoder reads every operand where the manual puts it. *)
Theorem decoder_operands : forall a w v,
  encodes (snd (asm_spec a)) w v -> get_operand a w = stored a v.
Proof. exact (fun a w v => getter_lemma a w v). Qed.
Print Assumptions decoder_operands.

(** Accepted text is encoded as the manual demands: the operand's bits hold the value the
    text means and no other bit is set. *)
Theorem asm_encodes_partial : forall a address t v c,
  ~ In a wrong_setters -> t <> TReg "mnstatus" ->
  means (fst (asm_spec a)) address t v -> legal (snd (asm_spec a)) v ->
  set_operand a address t = Some c ->
  encodes (snd (asm_spec a)) c v /\
  (forall k, 0 <= k -> ~ carries (snd (asm_spec a)) k -> Z.testbit c k = false).
Proof. exact (fun a address t v c => asm_lemma a address t v c). Qed.
Print Assumptions asm_encodes_partial.

(** Whatever the rest of the instruction word is, the decoder gets the operand back. *)
Theorem asm_roundtrip_partial : forall a address t v c w,
  ~ In a wrong_setters -> t <> TReg "mnstatus" ->
  means (fst (asm_spec a)) address t v -> legal (snd (asm_spec a)) v ->
  set_operand a address t = Some c ->
  (forall k, carries (snd (asm_spec a)) k -> Z.testbit w k = Z.testbit c k) ->
  get_operand a w = stored a v.
Proof. exact (fun a address t v c w => asm_roundtrip_lemma a address t v c w). Qed.
Print Assumptions asm_roundtrip_partial.

Example asm_roundtrip_nonvacuous :
  means (fst (asm_spec BImm12)) 0x80000010 (THex 0x80000000) (-16) /\
  legal (snd (asm_spec BImm12)) (-16) /\
  set_operand BImm12 0x80000010 (THex 0x80000000) = Some 0xfe000880 /\
  get_operand BImm12 (Z.lor 0xfe000880 0x00208063) = -16.
Proof.
  split; [reflexivity|]. split; [|split; vm_compute; reflexivity].
  split; [cbn; lia|]. intros i b [H|[]]. injection H as <- <-. reflexivity.
Qed.

(** Which texts are accepted: every register name and every literal or symbol the operand
    can express, provided branch targets written as literals are below 2^31. *)
Theorem asm_accepts_partial : forall a address t v,
  a <> Rm -> a <> SImm12 ->
  means (fst (asm_spec a)) address t v -> legal (snd (asm_spec a)) v ->
  (fst (asm_spec a) = KPcRel ->
     match t with THex n => 0 <= n < 2 ^ 31 | TDec n => 0 <= n < 2 ^ 31 | _ => True end) ->
  (forall n, t = TReg n -> ~ In n missing_csrs) ->
  exists c, set_operand a address t = Some c.
Proof. exact (fun a address t v => accept_lemma a address t v). Qed.
Print Assumptions asm_accepts_partial.

Theorem asm_accepts_simm12_partial : forall address t v,
  means KImm address t v -> 0 <= v < 2 ^ 32 ->
  exists c, set_operand SImm12 address t = Some c.
Proof. exact (fun address t v => accept_simm12 address t v). Qed.
Print Assumptions asm_accepts_simm12_partial.

Example asm_accepts_nonvacuous :
  means (fst (asm_spec Csr)) 0 (TReg "mhpmcounter31h") 0xb9f /\
  legal (snd (asm_spec Csr)) 0xb9f /\
  set_operand Csr 0 (TReg "mhpmcounter31h") = Some 0xb9f00000.
Proof.
  split; [apply csr_in; vm_compute; reflexivity|]. split; [|vm_compute; reflexivity].
  split; [cbn; lia|]. intros i b [].
Qed.

(** Setters that write where the decoder does not read: the text is accepted, and the
    decoder sees another operand. *)
Theorem asm_roundtrip_refuted : forall a,
  In a [Frs2; ICssUimm6x4; ICssUimm6x8] ->
  exists t v c, means (fst (asm_spec a)) 0 t v /\ legal (snd (asm_spec a)) v /\
    set_operand a 0 t = Some c /\ get_operand a c <> stored a v.
Proof.
  intros a [<-|[<-|[<-|[]]]].
  - exists (TReg "f7"), 7, 0x38000. split; [split; [lia|right; reflexivity]|].
    split; [split; [cbn; lia|intros i b []]|]. split; vm_compute; [reflexivity|discriminate].
  - exists (TDec 4), 4, 0x40. split; [reflexivity|].
    split; [split; [cbn; lia|]|].
    { intros i b [H|[H|[]]]; injection H as <- <-; reflexivity. }
    split; vm_compute; [reflexivity|discriminate].
  - exists (TDec 64), 64, 0x20. split; [reflexivity|].
    split; [split; [cbn; lia|]|].
    { intros i b [H|[H|[H|[]]]]; injection H as <- <-; reflexivity. }
    split; vm_compute; [reflexivity|discriminate].
Qed.
Print Assumptions asm_roundtrip_refuted.

(** No rounding mode can be written: every literal is rejected, and the register names
    that are accepted instead leave the rounding mode zero. *)
Theorem asm_rm_refuted : forall address t,
  (forall v, means (fst (asm_spec Rm)) address t v -> set_operand Rm address t = None) /\
  (forall n c, t = TReg n -> set_operand Rm address t = Some c -> get_operand Rm c = 0).
Proof.
  intros address t. split.
  - intros v M. destruct t as [n|n|n|n]; [contradiction|reflexivity..].
  - intros n c -> E. unfold set_operand in E.
    change (setter Rm) with (SRegs kRegisterList, f_R4Type, "rs3") in E. cbn [parse] in E.
    destruct (find_name kRegisterList n) as [x|]; [|discriminate]. injection E as <-.
    change (get_operand Rm (insert f_R4Type "rs3" x 0))
      with (extract f_RType "func3" (insert f_R4Type "rs3" x 0)).
    rewrite (other_lemma f_R4Type "rs3" f_RType "func3"); [reflexivity|cbn; tauto..|].
    intros k U1 U2. vm_compute in U1, U2. intuition congruence.
Qed.
Print Assumptions asm_rm_refuted.

(** A negative store offset, a jump target in the upper half of a 32-bit address space
    and register names of the manual are rejected. *)
Theorem asm_accepts_refuted :
  (forall address z, z < 0 -> set_operand SImm12 address (TDec z) = None) /\
  (forall a address n, In a [JImm20; ICbImm8; ICjImm11] -> 2 ^ 31 <= n ->
     set_operand a address (THex n) = None) /\
  (forall address n, In n missing_csrs ->
     (exists v, means KCsr address (TReg n) v) /\ set_operand Csr address (TReg n) = None).
Proof.
  split; [|split].
  - intros address z Hz. unfold set_operand.
    change (setter SImm12) with (SInt false, f_SType, "s_imm").
    cbn [parse text_to_int]. unfold fits32.
    destruct (Z.leb_spec 0 z); [lia|]. reflexivity.
  - intros a address n [<-|[<-|[<-|[]]]] Hn; unfold set_operand; cbn [setter parse text_to_int];
      unfold fits32; destruct (Z.ltb_spec n (2 ^ 31)); try lia; rewrite andb_false_r; reflexivity.
  - intros address n H.
    assert (forallb (fun n => match find_name csr_manual n with
                              | Some v => existsb (fun p => String.eqb (fst p) n && (snd p =? v)) csr_manual
                              | None => false end &&
                     match find_name kCsrRegisterList n with Some _ => false | None => true end)
              missing_csrs = true) as A by (vm_compute; reflexivity).
    rewrite forallb_forall in A. specialize (A n H). apply andb_true_iff in A as [A B].
    split.
    + destruct (find_name csr_manual n) as [v|]; [|discriminate]. exists v.
      apply csr_in. exact A.
    + unfold set_operand. change (setter Csr) with (SRegs kCsrRegisterList, f_IType, "u_imm12").
      cbn [parse]. destruct (find_name kCsrRegisterList n); [discriminate|reflexivity].
Qed.
Print Assumptions asm_accepts_refuted.

(** mnstatus is assembled with the number of no register. *)
Theorem asm_mnstatus_refuted : exists v c,
  means (fst (asm_spec Csr)) 0 (TReg "mnstatus") v /\
  set_operand Csr 0 (TReg "mnstatus") = Some c /\ get_operand Csr c <> v /\
  forall name, ~ In (name, get_operand Csr c) csr_manual.
Proof.
  exists 0x744, 0x74300000. split; [|split; [|split]].
  - apply csr_in. vm_compute. reflexivity.
  - vm_compute; reflexivity.
  - vm_compute; discriminate.
  - intros name H. assert (existsb (fun p => snd p =? 0x743) csr_manual = true) as X.
    { apply existsb_exists. eexists. split; [exact H|]. vm_compute. reflexivity. }
    vm_compute in X. discriminate.
Qed.
Print Assumptions asm_mnstatus_refuted.

(** Values an operand cannot express are not rejected but silently truncated. *)
Theorem asm_range_refuted : exists a t v c,
  means (fst (asm_spec a)) 0 t v /\ ~ legal (snd (asm_spec a)) v /\
  set_operand a 0 t = Some c /\ get_operand a c <> v.
Proof.
  exists IImm12, (TDec 4096), 4096, 0. split; [reflexivity|]. split; [|split].
  - intros [R _]. cbn in R. lia.
  - vm_compute; reflexivity.
  - vm_compute; discriminate.
Qed.
Print Assumptions asm_range_refuted.
