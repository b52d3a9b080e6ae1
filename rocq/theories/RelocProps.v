(** Theorems C94: relocation entries of the RV64G assembler. *)
From Coq Require Import ZArith List String Ascii Bool Lia.
From Verif Require Import RelocSpec RelocModel.
Import ListNotations.
Local Open Scope string_scope.
Local Open Scope Z_scope.

(** ** The first match *)
Definition first (ps : list part) (t : text) (m : list text) : Prop := exists l, full_matches ps t = m :: l.
Lemma first_cons p ps t a q l m : ways p t = (a, q) :: l -> first ps q m -> first (p :: ps) t (a :: m).
Proof. intros W (k & F). unfold first. cbn [full_matches]. rewrite W. cbn [flat_map fst snd]. rewrite F. cbn [map app]. eexists. reflexivity. Qed.
Lemma first_nil : first [] [] []. Proof. exists []. reflexivity. Qed.
Definition stops (c : ascii -> bool) (q : text) : Prop := match q with x :: _ => c x = false | [] => True end.
Lemma star_first c q : stops c q -> forall p, forallb c p = true -> exists l, star c (p ++ q)%list = (p, q) :: l.
Proof.
  intros Q. induction p as [| x p IH]; intros P.
  - destruct q as [| y q]; [exists []; reflexivity |]. cbn in Q. cbn [star app]. rewrite Q. exists []. reflexivity.
  - cbn [forallb] in P. apply andb_true_iff in P. destruct P as [X P]. destruct (IH P) as (l & E). cbn [star app]. rewrite X, E. cbn [map app fst snd].
    eexists. reflexivity.
Qed.
Lemma plus_first c q x p : stops c q -> c x = true -> forallb c p = true -> exists l, plus c (x :: p ++ q)%list = (x :: p, q) :: l.
Proof.
  intros Q X P. destruct (star_first c q Q p P) as (l & E). cbn [plus]. rewrite X. rewrite E. cbn [map fst snd]. eexists. reflexivity.
Qed.

(** ** Characters *)
Lemma each (P : ascii -> bool) : (forall a b c d e f g h, P (Ascii a b c d e f g h) = true) -> forall c, P c = true.
Proof. intros H [a b c d e f g h]. apply H. Qed.
Definition apart (c : ascii) : bool :=
  implb (blank c) (negb (word c)) && implb (letter c) (negb (Ascii.eqb "%" c) && negb (Ascii.eqb "(" c)) &&
  implb (word c || blank c) (negb (Ascii.eqb ")" c)).
Lemma apart_all c : apart c = true.
Proof. revert c. apply each. intros [] [] [] [] [] [] [] []; reflexivity. Qed.
Lemma blank_word c : blank c = true -> word c = false.
Proof. pose proof (apart_all c) as A. unfold apart in A. rewrite !andb_true_iff in A. intros E. rewrite E in A. apply negb_true_iff. exact (proj1 (proj1 A)). Qed.
Lemma letter_word c : letter c = true -> word c = true. Proof. intros E. unfold word. rewrite E. reflexivity. Qed.
Lemma letter_blank c : letter c = true -> blank c = false.
Proof. intros E. destruct (blank c) eqn:B; [| reflexivity]. pose proof (letter_word c E) as X. rewrite (blank_word c B) in X. discriminate X. Qed.
Lemma letter_other c : letter c = true -> Ascii.eqb "%" c = false /\ Ascii.eqb "(" c = false.
Proof.
  pose proof (apart_all c) as A. unfold apart in A. rewrite !andb_true_iff in A. intros E. rewrite E in A. cbn [implb] in A.
  destruct A as [[_ A] _]. apply andb_true_iff in A. rewrite !negb_true_iff in A. exact A.
Qed.
Definition inside (c : ascii) : bool := negb (Ascii.eqb ")" c).
Lemma word_inside t : forallb word t = true -> forallb inside t = true.
Proof.
  rewrite !forallb_forall. intros H x Hx. specialize (H x Hx). pose proof (apart_all x) as A. unfold apart in A. rewrite !andb_true_iff in A.
  rewrite H in A. exact (proj2 A).
Qed.
Lemma blank_inside t : blanks t -> forallb inside t = true.
Proof.
  unfold blanks. rewrite !forallb_forall. intros H x Hx. specialize (H x Hx). pose proof (apart_all x) as A. unfold apart in A. rewrite !andb_true_iff in A.
  rewrite H, orb_true_r in A. exact (proj2 A).
Qed.

(** ** What the expression captures *)
Lemma match_modifier a f b s r c d : blanks a -> modifier f -> blanks b -> letter s = true -> forallb word r = true -> (r ++ c)%list <> [] -> blanks c -> blanks d ->
  sym_match (a ++ "%"%char :: f ++ b ++ "("%char :: (s :: r) ++ c ++ ")"%char :: d)%list = Some ("%"%char :: f, ((s :: r) ++ c)%list).
Proof.
  intros Ha [Nf Hf] Hb Hs Hr Hn Hc Hd. destruct f as [| f0 f]; [contradiction |]. cbn [forallb] in Hf. apply andb_true_iff in Hf. destruct Hf as [F0 Hf].
  assert (F : first kSymRe (a ++ "%"%char :: (f0 :: f) ++ b ++ "("%char :: (s :: r) ++ c ++ ")"%char :: d)%list
    [a; "%"%char :: f0 :: f; b; ["("%char]; [s]; (r ++ c)%list; [")"%char]; d]).
  { unfold kSymRe.
    destruct (star_first blank ("%"%char :: (f0 :: f) ++ b ++ "("%char :: (s :: r) ++ c ++ ")"%char :: d)%list eq_refl a Ha) as (l1 & E1).
    refine (first_cons _ _ _ _ _ l1 _ (E1 : ways (Star blank) _ = _) _).
    assert (SW : stops word (b ++ "("%char :: (s :: r) ++ c ++ ")"%char :: d)%list).
    { destruct b as [| b0 b]; [reflexivity |]. cbn. apply blank_word. unfold blanks in Hb. cbn [forallb] in Hb. apply andb_true_iff in Hb. exact (proj1 Hb). }
    destruct (plus_first word _ f0 f SW F0 Hf) as (l2 & E2).
    eapply first_cons; [cbn [ways]; change (Ascii.eqb "%" "%") with true; cbv iota; change ((f0 :: f) ++ ?z)%list with (f0 :: f ++ z)%list; rewrite E2; reflexivity |].
    destruct (star_first blank ("("%char :: (s :: r) ++ c ++ ")"%char :: d)%list eq_refl b Hb) as (l3 & E3).
    refine (first_cons _ _ _ _ _ l3 _ (E3 : ways (Star blank) _ = _) _).
    eapply first_cons; [reflexivity |].
    eapply first_cons; [cbn [ways app]; rewrite Hs; reflexivity |].
    assert (IN : forallb inside (r ++ c)%list = true) by (rewrite forallb_app, word_inside, blank_inside by assumption; reflexivity).
    rewrite app_assoc. destruct (r ++ c)%list as [| x y] eqn:RC; [contradiction |]. cbn [forallb] in IN. apply andb_true_iff in IN. destruct IN as [I1 I2].
    destruct (plus_first inside (")"%char :: d) x y eq_refl I1 I2) as (l4 & E4).
    refine (first_cons _ _ _ _ _ l4 _ (E4 : ways (Plus inside) _ = _) _).
    eapply first_cons; [reflexivity |].
    destruct (star_first blank [] Logic.I d Hd) as (l5 & E5). rewrite app_nil_r in E5.
    refine (first_cons _ _ _ _ _ l5 _ (E5 : ways (Star blank) _ = _) _). exact first_nil. }
  destruct F as (l & E). unfold sym_match. rewrite E. reflexivity.
Qed.
Lemma match_bare a s r b : blanks a -> letter s = true -> forallb word r = true -> (r ++ b)%list <> [] -> blanks b ->
  sym_match (a ++ (s :: r) ++ b)%list = Some ([], ((s :: r) ++ b)%list).
Proof.
  intros Ha Hs Hr Hn Hb. destruct (letter_other s Hs) as [S1 S2]. pose proof (letter_blank s Hs) as S3.
  assert (F : first kSymRe (a ++ (s :: r) ++ b)%list [a; []; []; []; [s]; (r ++ b)%list; []; []]).
  { unfold kSymRe. destruct (star_first blank ((s :: r) ++ b)%list S3 a Ha) as (l1 & E1). refine (first_cons _ _ _ _ _ l1 _ (E1 : ways (Star blank) _ = _) _).
    eapply first_cons; [cbn [ways app]; rewrite S1; reflexivity |].
    eapply first_cons; [cbn [ways star app]; rewrite S3; reflexivity |].
    eapply first_cons; [cbn [ways app]; rewrite S2; reflexivity |].
    eapply first_cons; [cbn [ways app]; rewrite Hs; reflexivity |].
    assert (IN : forallb inside (r ++ b)%list = true) by (rewrite forallb_app, word_inside, blank_inside by assumption; reflexivity).
    destruct (r ++ b)%list as [| x y] eqn:RC; [contradiction |]. cbn [forallb] in IN. apply andb_true_iff in IN. destruct IN as [I1 I2].
    destruct (plus_first inside [] x y Logic.I I1 I2) as (l4 & E4). rewrite app_nil_r in E4.
    refine (first_cons _ _ _ _ _ l4 _ (E4 : ways (Plus inside) _ = _) _). eapply first_cons; [reflexivity |]. eapply first_cons; [reflexivity |]. exact first_nil. }
  destruct F as (l & E). unfold sym_match. rewrite E. reflexivity.
Qed.

(** The operand names the symbol, which is not a single character, and is written with no blank after the symbol. *)
Definition tight (t : text) (f : option text) (sym : text) : Prop :=
  symbol sym /\ (2 <= List.length sym)%nat /\
  match f with
  | None => exists a, blanks a /\ t = (a ++ sym)%list
  | Some f => modifier f /\ exists a b d, blanks a /\ blanks b /\ blanks d /\ t = (a ++ "%"%char :: f ++ b ++ "("%char :: sym ++ ")"%char :: d)%list
  end.
Lemma tight_names t f sym : tight t f sym -> names t f sym.
Proof.
  intros (S & _ & T). split; [exact S |]. destruct f as [f |].
  - destruct T as (M & a & b & d & Ha & Hb & Hd & ->). split; [exact M |]. exists a, b, [], d. repeat split; assumption.
  - destruct T as (a & Ha & ->). exists a, []. rewrite app_nil_r. repeat split; assumption.
Qed.
Lemma tight_match t f sym : tight t f sym -> sym_match t = Some (match f with Some f => "%"%char :: f | None => [] end, sym).
Proof.
  intros ((s & r & -> & Hs & Hr) & L & T). assert (N : r <> []) by (intros ->; cbn in L; lia). destruct f as [f |].
  - destruct T as (M & a & b & d & Ha & Hb & Hd & ->). rewrite <- (app_nil_r (s :: r)) at 2.
    apply (match_modifier a f b s r [] d); try assumption; try reflexivity. rewrite app_nil_r. exact N.
  - destruct T as (a & Ha & ->). rewrite <- (app_nil_r (s :: r)). apply (match_bare a s r []); try assumption; try reflexivity. rewrite app_nil_r. exact N.
Qed.
Lemma is_text_modifier (f : text) s : is_text ("%"%char :: f) (String "%" s) = eq_text (Some f) s.
Proof. reflexivity. Qed.

(** The operands for which, and the modifiers with which, an entry is emitted as prescribed. *)
Definition supported (opcode : string) (f : option text) : Prop :=
  (opcode = "addi" \/ opcode = "sd") /\ f <> None \/
  opcode = "lui" /\ eq_text f "hi" = true \/
  opcode = "auipc" /\ eq_text f "pcrel_hi" = true \/
  (opcode = "jalr" \/ opcode = "jr") /\ eq_text f "pcrel_lo" = true \/
  (opcode = "jal" \/ opcode = "j") /\ f = None.
(** For every symbol of two or more characters, in every operand as above with no blank after the symbol: the entry is
    the prescribed one, and for addi and sd every other modifier is rejected.  Missing (refuted below): the other 24
    relocatable operands, %lo with jalr, modifiers that do not fit, symbols of one character, blanks after the symbol. *)
Theorem reloc_correct_partial : forall opcode operand p t f sym, In (opcode, operand) relocatable -> In (opcode, p) places ->
  supported opcode f -> tight t f sym -> names t f sym /\ relocated p f sym (AppendSrcOpRelocation opcode operand t).
Proof.
  intros opcode operand p t f sym HR HP HS HT. split; [exact (tight_names t f sym HT) |]. pose proof (tight_match t f sym HT) as M.
  assert (PU : forall q, In (opcode, q) places -> In opcode ["addi"; "sd"; "lui"; "auipc"; "jalr"; "jr"; "jal"; "j"] ->
    q = (if String.eqb opcode "lui" then Lui else if String.eqb opcode "auipc" then Auipc else if String.eqb opcode "sd" then Simm
         else if existsb (String.eqb opcode) ["jal"; "j"] then Jump else Iimm)).
  { unfold places. cbn [In]. intros q H K.
    repeat (destruct H as [H | H]; [apply pair_equal_spec in H; destruct H as [<- <-]; try reflexivity;
      exfalso; repeat (destruct K as [K | K]; [discriminate K |]); destruct K |]). destruct H. }
  assert (OP : forall o, In (opcode, o) relocatable -> In opcode ["addi"; "sd"; "lui"; "auipc"; "jalr"; "jr"; "jal"; "j"] ->
    o = (if String.eqb opcode "addi" then "I_imm12" else if String.eqb opcode "sd" then "S_imm12"
         else if existsb (String.eqb opcode) ["lui"; "auipc"] then "U_imm20" else if existsb (String.eqb opcode) ["jal"; "j"] then "J_imm20" else "J_imm12")).
  { unfold relocatable. cbn [In]. intros o H K.
    repeat (destruct H as [H | H]; [apply pair_equal_spec in H; destruct H as [<- <-]; try reflexivity;
      exfalso; repeat (destruct K as [K | K]; [discriminate K |]); destruct K |]). destruct H. }
  unfold relocated.
  destruct HS as [[[-> | ->] NF] | [[-> EF] | [[-> EF] | [[[-> | ->] EF] | [[-> | ->] ->]]]]];
    rewrite (PU p HP ltac:(cbn [In]; tauto)), (OP operand HR ltac:(cbn [In]; tauto)); cbv beta.
  - change (AppendSrcOpRelocation "addi" _ t) with (RelocateAddiIImm12 t). destruct f as [f |]; [| contradiction]. unfold RelocateAddiIImm12. rewrite M, !is_text_modifier.
    change (relocation_type _ (Some f)) with (if eq_text (Some f) "lo" then Some 27 else if eq_text (Some f) "pcrel_lo" then Some 24 else None).
    destruct (eq_text (Some f) "lo"); [reflexivity |]. destruct (eq_text (Some f) "pcrel_lo"); [reflexivity |]. intros _. reflexivity.
  - change (AppendSrcOpRelocation "sd" _ t) with (RelocateSdSImm12 t). destruct f as [f |]; [| contradiction]. unfold RelocateSdSImm12. rewrite M, !is_text_modifier.
    change (relocation_type _ (Some f)) with (if eq_text (Some f) "lo" then Some 28 else if eq_text (Some f) "pcrel_lo" then Some 25 else None).
    destruct (eq_text (Some f) "lo"); [reflexivity |]. destruct (eq_text (Some f) "pcrel_lo"); [reflexivity |]. intros _. reflexivity.
  - change (AppendSrcOpRelocation "lui" _ t) with (RelocateLuiUImm20 t). unfold RelocateLuiUImm20. rewrite M.
    change (relocation_type _ f) with (if eq_text f "hi" then Some 26 else None). rewrite EF. reflexivity.
  - change (AppendSrcOpRelocation "auipc" _ t) with (RelocateAuipcUImm20 t). destruct f as [f |]; [| discriminate EF]. unfold RelocateAuipcUImm20. rewrite M, is_text_modifier.
    change (relocation_type _ (Some f)) with (if eq_text (Some f) "pcrel_hi" then Some 23 else None). rewrite EF. reflexivity.
  - change (AppendSrcOpRelocation "jalr" _ t) with (RelocateJrJImm12 t). destruct f as [f |]; [| discriminate EF]. unfold RelocateJrJImm12. rewrite M, is_text_modifier.
    change (relocation_type _ (Some f)) with (if eq_text (Some f) "lo" then Some 27 else if eq_text (Some f) "pcrel_lo" then Some 24 else None). rewrite EF.
    cbn [eq_text] in *. apply String.eqb_eq in EF. rewrite EF. reflexivity.
  - change (AppendSrcOpRelocation "jr" _ t) with (RelocateJrJImm12 t). destruct f as [f |]; [| discriminate EF]. unfold RelocateJrJImm12. rewrite M, is_text_modifier.
    change (relocation_type _ (Some f)) with (if eq_text (Some f) "lo" then Some 27 else if eq_text (Some f) "pcrel_lo" then Some 24 else None). rewrite EF.
    cbn [eq_text] in *. apply String.eqb_eq in EF. rewrite EF. reflexivity.
  - change (AppendSrcOpRelocation "jal" _ t) with (RelocateJJImm20 t). unfold RelocateJJImm20. rewrite M. reflexivity.
  - change (AppendSrcOpRelocation "j" _ t) with (RelocateJJImm20 t). unfold RelocateJJImm20. rewrite M. reflexivity.
Qed.
Print Assumptions reloc_correct_partial.
Example reloc_correct_case :
  tight (chars " %lo (my_var) ") (Some (chars "lo")) (chars "my_var") /\ supported "addi" (Some (chars "lo")) /\
  AppendSrcOpRelocation "addi" "I_imm12" (chars " %lo (my_var) ") = Entries [mk_entry 0 (chars "my_var") 27 0 0].
Proof.
  split; [| split; [left; split; [left; reflexivity | discriminate] | vm_compute; reflexivity]].
  split; [exists "m"%char, (chars "y_var"); repeat split |]. split; [cbn; lia |]. split; [split; [discriminate | reflexivity] |].
  exists [" "%char], [" "%char], [" "%char]. repeat split.
Qed.

(** The relocatable operands without relocation: sw, loads, branches and so on. *)
Definition unsupported : list string :=
  ["addiw"; "beq"; "bne"; "blt"; "bltu"; "bge"; "bgeu"; "ld"; "lw"; "lwu"; "lh"; "lhu"; "lb"; "lbu"; "sw"; "sh"; "sb"; "flw"; "fsw"; "fld"; "fsd";
   "cj"; "cbeqz"; "cbnez"].
(** Whatever symbol and modifier they have, no entry is emitted and nothing is reported. *)
Theorem reloc_missing_refuted :
  (forall opcode operand p t f sym, In (opcode, operand) relocatable -> In opcode unsupported -> In (opcode, p) places -> names t f sym ->
     AppendSrcOpRelocation opcode operand t = Entries [] /\
     (f <> None \/ relocation_type p f <> None -> ~ relocated p f sym (AppendSrcOpRelocation opcode operand t))) /\
  (exists t sym, names t (Some (chars "lo")) sym /\ In ("sw", Simm) places /\ relocation_type Simm (Some (chars "lo")) = Some 28 /\
     AppendSrcOpRelocation "sw" "S_imm12" t = Entries []).
Proof.
  split.
  - intros opcode operand p t f sym HR HU HP HN.
    assert (E : AppendSrcOpRelocation opcode operand t = Entries []).
    { clear HP HN. unfold unsupported in HU. cbn [In] in HU. unfold relocatable in HR.
      repeat (destruct HU as [<- | HU]; [reflexivity |]). destruct HU. }
    split; [exact E |]. rewrite E. unfold relocated. intros D. destruct (relocation_type p f); [discriminate |].
    destruct D as [D | D]; [| contradiction]. intros K. specialize (K D). discriminate K.
  - exists (chars "%lo(foo)"), (chars "foo"). split; [| split; [unfold places; cbn [In]; tauto | split; reflexivity]].
    split; [exists "f"%char, (chars "oo"); repeat split |]. split; [split; [discriminate | reflexivity] |].
    exists [], [], [], []. repeat split.
Qed.
Print Assumptions reloc_missing_refuted.

(** A symbol of one character is rejected (addi), gets no entry (jal), or an entry for another symbol (lui %hi(x): the
    modifier is taken to be %h and the symbol i(x); a blank between the symbol and the parenthesis or the end becomes part of
    the name; lui takes %lo, and jal takes %hi, for its own relocation; jalr drops %lo. *)
Theorem reloc_wrong_refuted :
  (names (chars "%lo(x)") (Some (chars "lo")) (chars "x") /\ AppendSrcOpRelocation "addi" "I_imm12" (chars "%lo(x)") = Rejected) /\
  (names (chars "%hi(x)") (Some (chars "hi")) (chars "x") /\
   AppendSrcOpRelocation "lui" "U_imm20" (chars "%hi(x)") = Entries [mk_entry 0 (chars "i(x") 26 0 0]) /\
  (names (chars "x") None (chars "x") /\ AppendSrcOpRelocation "jal" "J_imm20" (chars "x") = Entries []) /\
  (names (chars "%lo(foo )") (Some (chars "lo")) (chars "foo") /\
   AppendSrcOpRelocation "addi" "I_imm12" (chars "%lo(foo )") = Entries [mk_entry 0 (chars "foo ") 27 0 0]) /\
  (names (chars "foo ") None (chars "foo") /\ AppendSrcOpRelocation "jal" "J_imm20" (chars "foo ") = Entries [mk_entry 0 (chars "foo ") 17 0 0]) /\
  (names (chars "%lo(foo)") (Some (chars "lo")) (chars "foo") /\ relocation_type Lui (Some (chars "lo")) = None /\
   AppendSrcOpRelocation "lui" "U_imm20" (chars "%lo(foo)") = Entries [mk_entry 0 (chars "foo") 26 0 0] /\
   relocation_type Iimm (Some (chars "lo")) = Some 27 /\ AppendSrcOpRelocation "jalr" "J_imm12" (chars "%lo(foo)") = Entries []) /\
  (names (chars "%hi(foo)") (Some (chars "hi")) (chars "foo") /\ relocation_type Jump (Some (chars "hi")) = None /\
   AppendSrcOpRelocation "jal" "J_imm20" (chars "%hi(foo)") = Entries [mk_entry 0 (chars "foo") 17 0 0]).
Proof.
  assert (S1 : symbol (chars "x")) by (exists "x"%char, []; repeat split).
  assert (S3 : symbol (chars "foo")) by (exists "f"%char, (chars "oo"); repeat split).
  assert (M : forall m, modifier (chars m) -> forall s c, symbol (chars s) -> blanks c ->
    names ("%"%char :: chars m ++ [] ++ "("%char :: chars s ++ c ++ ")"%char :: [])%list (Some (chars m)) (chars s)).
  { intros m Hm s c Hs Hc. split; [exact Hs |]. split; [exact Hm |]. exists [], [], c, []. repeat split. exact Hc. }
  split; [| split; [| split; [| split; [| split; [| split]]]]].
  - split; [exact (M "lo" ltac:(split; [discriminate | reflexivity]) "x" [] S1 eq_refl) | vm_compute; reflexivity].
  - split; [exact (M "hi" ltac:(split; [discriminate | reflexivity]) "x" [] S1 eq_refl) | vm_compute; reflexivity].
  - split; [split; [exact S1 | exists [], []; repeat split] | vm_compute; reflexivity].
  - split; [exact (M "lo" ltac:(split; [discriminate | reflexivity]) "foo" [" "%char] S3 eq_refl) | vm_compute; reflexivity].
  - split; [split; [exact S3 | exists [], [" "%char]; repeat split] | vm_compute; reflexivity].
  - split; [exact (M "lo" ltac:(split; [discriminate | reflexivity]) "foo" [] S3 eq_refl) |]. repeat split.
  - split; [exact (M "hi" ltac:(split; [discriminate | reflexivity]) "foo" [] S3 eq_refl) |]. repeat split.
Qed.
Print Assumptions reloc_wrong_refuted.

(** ** Numbers *)
(** A number as the assembler reads it (decimal, hexadecimal, with or without sign): after the blanks comes a digit or a sign. *)
Definition number (t : text) : Prop :=
  exists a x r, blanks a /\ (between "0" "9" x || Ascii.eqb x "-" || Ascii.eqb x "+") = true /\ t = (a ++ x :: r)%list.
Definition starter (c : ascii) : bool := between "0" "9" c || Ascii.eqb c "-" || Ascii.eqb c "+".
Definition closed (c : ascii) : bool :=
  implb (starter c) (negb (letter c) && negb (blank c) && negb (Ascii.eqb "%" c) && negb (Ascii.eqb "(" c)) &&
  implb (blank c) (negb (letter c) && negb (Ascii.eqb "%" c) && negb (Ascii.eqb "(" c)).
Lemma closed_all c : closed c = true.
Proof. revert c. apply each. intros [] [] [] [] [] [] [] []; reflexivity. Qed.
Lemma starter_closed c : starter c = true -> letter c = false /\ blank c = false /\ Ascii.eqb "%" c = false /\ Ascii.eqb "(" c = false.
Proof.
  pose proof (closed_all c) as A. unfold closed in A. apply andb_true_iff in A. destruct A as [A _]. intros E. rewrite E in A. cbn [implb] in A.
  rewrite !andb_true_iff, !negb_true_iff in A. tauto.
Qed.
Lemma blank_closed c : blank c = true -> letter c = false /\ Ascii.eqb "%" c = false /\ Ascii.eqb "(" c = false.
Proof.
  pose proof (closed_all c) as A. unfold closed in A. apply andb_true_iff in A. destruct A as [_ A]. intros E. rewrite E in A. cbn [implb] in A.
  rewrite !andb_true_iff, !negb_true_iff in A. tauto.
Qed.
Lemma full_nil p ps t : (forall m, In m (ways p t) -> full_matches ps (snd m) = []) -> full_matches (p :: ps) t = [].
Proof.
  cbn [full_matches]. induction (ways p t) as [| m l IH]; intros H; [reflexivity |]. cbn [flat_map].
  rewrite (H m (or_introl eq_refl)). cbn [map app]. apply IH. intros k K. apply H. right. exact K.
Qed.
Lemma star_rest x r : blank x = false -> forall a m, In m (star blank (a ++ x :: r)%list) -> blanks a -> exists b, blanks b /\ snd m = (b ++ x :: r)%list.
Proof.
  intros X. induction a as [| y a IH]; intros m; cbn [app star].
  - rewrite X. intros [<- | []] _. exists []. split; reflexivity.
  - intros K B. unfold blanks in B. cbn [forallb] in B. apply andb_true_iff in B. destruct B as [Y B]. rewrite Y in K. apply in_app_or in K. destruct K as [K | [<- | []]].
    + apply in_map_iff in K. destruct K as (k & <- & K). cbn [snd]. exact (IH k K B).
    + exists (y :: a). split; [unfold blanks; cbn [forallb]; rewrite Y, B; reflexivity | reflexivity].
Qed.
Lemma number_match t : number t -> sym_match t = None.
Proof.
  intros (a & x & r & Ha & Hx & ->). destruct (starter_closed x Hx) as (X1 & X2 & X3 & X4). unfold sym_match, kSymRe.
  assert (H : forall b, blanks b -> exists y z, (b ++ x :: r)%list = y :: z /\ letter y = false /\ Ascii.eqb "%" y = false /\ Ascii.eqb "(" y = false).
  { intros [| y b] B; [exists x, r; auto |]. unfold blanks in B. cbn [forallb] in B. apply andb_true_iff in B. destruct (blank_closed y (proj1 B)) as (Y1 & Y2 & Y3).
    exists y, (b ++ x :: r)%list. auto. }
  rewrite full_nil; [reflexivity |]. intros m M. destruct (star_rest x r X2 a m M Ha) as (b & B & ->).
  apply full_nil. intros m1. destruct (H b B) as (y & z & E & L & P & O). rewrite E. cbn [ways]. rewrite P. intros [<- | []]. cbn [snd]. rewrite <- E. clear y z E L P O.
  apply full_nil. intros m2 M2. destruct (star_rest x r X2 b m2 M2 B) as (c & C & ->).
  destruct (H c C) as (y & z & E & L & P & O). rewrite E.
  apply full_nil. intros m3. cbn [ways]. rewrite O. intros [<- | []]. cbn [snd].
  apply full_nil. intros m4. cbn [ways]. rewrite L. intros [].
Qed.
(** Operands that are numbers yield neither entries nor errors, whatever the instruction and the rest of the text. *)
Theorem reloc_number : forall opcode operand t, number t -> AppendSrcOpRelocation opcode operand t = Entries [].
Proof.
  intros opcode operand t N. pose proof (number_match t N) as M. unfold AppendSrcOpRelocation.
  destruct (find _ relocation_source_op_map) as [[[o p] fn] |] eqn:F; [| reflexivity].
  apply find_some in F. destruct F as [F _]. unfold relocation_source_op_map in F. cbn [In] in F.
  repeat (destruct F as [F | F]; [injection F as _ _ <-;
    unfold RelocateAddiIImm12, RelocateJJImm20, RelocateJrJImm12, RelocateLuiUImm20, RelocateSdSImm12, RelocateAuipcUImm20; rewrite M; reflexivity |]).
  destruct F.
Qed.
Print Assumptions reloc_number.
Example reloc_number_case : number (chars " -0x1f") /\ AppendSrcOpRelocation "addi" "I_imm12" (chars " -0x1f") = Entries [].
Proof. split; [exists [" "%char], "-"%char, (chars "0x1f"); repeat split | vm_compute; reflexivity]. Qed.
