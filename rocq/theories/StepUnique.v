(** The specification of an instruction determines its outcome (sanity of C73). *)
From Coq Require Import ZArith List String Bool Lia.
From Verif Require Import Bits FmtSpec FmtModel FmtLink FmtProofs IntSpec Memory AccessSpec AccessModel StepSpec StepCheck.
Import ListNotations.
Local Open Scope string_scope.
Local Open Scope Z_scope.

Lemma bitwise_unique w r r' f : 0 <= w -> 0 <= r < 2 ^ w -> 0 <= r' < 2 ^ w -> bitwise w r f -> bitwise w r' f -> r = r'.
Proof. intros W A B F G. apply (inw_eq_bits w); try assumption. intros i Hi. rewrite (F i Hi), (G i Hi). reflexivity. Qed.
Lemma bitwise_unique64 w r r' f : w = 32 \/ w = 64 -> 0 <= r < 2 ^ w -> 0 <= r' < 2 ^ w -> bitwise 64 r f -> bitwise 64 r' f -> r = r'.
Proof.
  intros W A B F G. apply (bitwise_unique 64 r r' f); try assumption; [lia | |];
    destruct W as [-> | ->]; try assumption; change (2 ^ 64) with (2 ^ 32 * 2 ^ 32); nia.
Qed.
Lemma leading_unique w a n n' : leading_zeros w a n -> leading_zeros w a n' -> n = n'.
Proof.
  intros (A & B & C) (A' & B' & C'). destruct (Z.lt_trichotomy n n') as [L | [E | L]]; [| exact E |]; exfalso.
  - rewrite (B' (w - 1 - n)) in C by lia. discriminate C. lia.
  - rewrite (B (w - 1 - n')) in C' by lia. discriminate C'. lia.
Qed.
Lemma trailing_unique w a n n' : trailing_zeros w a n -> trailing_zeros w a n' -> n = n'.
Proof.
  intros (A & B & C) (A' & B' & C'). destruct (Z.lt_trichotomy n n') as [L | [E | L]]; [| exact E |]; exfalso.
  - rewrite (B' n) in C by lia. discriminate C. lia.
  - rewrite (B n') in C' by lia. discriminate C'. lia.
Qed.
Lemma rd_unique w op a b r r' : w = 32 \/ w = 64 -> rd_rel w op a b r -> rd_rel w op a b r' -> r = r'.
Proof.
  intros W [A R] [A' R']. assert (W0 : 0 <= w) by (destruct W; subst; discriminate).
  destruct op; cbn [iop_rel] in R, R';
    first [ exact (eq_trans R (eq_sym R')) | exact (leading_unique _ _ _ _ R R') | exact (trailing_unique _ _ _ _ R R')
          | exact (bitwise_unique w r r' _ W0 A A' R R') | exact (bitwise_unique64 w r r' _ W A A' R R') ].
Qed.
Lemma loaded_unique w k m a r r' : 0 <= w -> loaded w k m a r -> loaded w k m a r' -> r = r'.
Proof. intros W [A F] [B G]. apply (inw_eq_bits w); try assumption. intros i Hi. rewrite (F i Hi), (G i Hi). reflexivity. Qed.
Lemma boxed_unique v r r' : boxed v r -> boxed v r' -> r = r'.
Proof. intros [A F] [B G]. apply (inw_eq_bits 64); try assumption; [lia |]. intros i Hi. rewrite (F i Hi), (G i Hi). reflexivity. Qed.

(** Every operand of every instruction is a field of some format. *)
Definition known_opd (o : operand) : bool := existsb (fun p => let '(o', fm, n) := p in if String.eqb (o_name o) (o_name o') then agrees o fm n else false) manual_fields.
Definition opds_ok (l : list opd) : bool := forallb (fun p => match p with Reg o | Imm o => known_opd o | _ => true end) l.
Definition dest_ok (d : dest) : bool := match d with Rd o => known_opd o | _ => true end.
Definition instr_ok (i : instr) : bool :=
  match i with
  | IOp _ d a b => dest_ok d && opds_ok [a; b]
  | IUpper _ d o => dest_ok d && known_opd o
  | IJal d off => dest_ok d && opds_ok [off]
  | IJalr d a off => dest_ok d && opds_ok [a; off]
  | IBranch _ a b off => opds_ok [a; b; off]
  | ILoad _ d a off => dest_ok d && opds_ok [a; off]
  | IStore _ a off v => opds_ok [a; off; v]
  | IFload _ fd a off => known_opd fd && opds_ok [a; off]
  | IFstore _ a off fs => known_opd fs && opds_ok [a; off]
  | INop => true
  end.
Lemma all_instrs_ok : forallb (fun p => instr_ok (snd p)) (semantics_common ++ semantics_32 ++ semantics_64) = true.
Proof. vm_compute. reflexivity. Qed.
Lemma semantics_ok xlen m i : semantics xlen m = Some i -> instr_ok i = true.
Proof.
  unfold semantics. destruct (find _ _) as [[n j] |] eqn:F; [| discriminate]. intros E. injection E as <-.
  apply find_some in F. destruct F as [F _]. pose proof all_instrs_ok as A. rewrite forallb_forall in A.
  apply (A (n, j)). rewrite !in_app_iff in *. destruct (xlen =? 32); tauto.
Qed.
Lemma known_opd_unique o w n n' : known_opd o = true -> encodes o w n -> encodes o w n' -> n = n'.
Proof.
  unfold known_opd. rewrite existsb_exists. intros ([[o' fm] fld] & _ & A) E E'. destruct (String.eqb _ _); [| discriminate A]. exact (encodes_unique_lemma o fm fld w n n' A E E').
Qed.
Lemma names_unique w d n n' : dest_ok d = true -> names w d n -> names w d n' -> n = n'.
Proof. destruct d; cbn [dest_ok names]; intros A B C; [exact (known_opd_unique _ _ _ _ A B C) | congruence]. Qed.
Lemma value_unique xlen w h p v v' : opds_ok [p] = true -> opd_value xlen w h p v -> opd_value xlen w h p v' -> v = v'.
Proof.
  cbn [opds_ok forallb]. rewrite andb_true_r. destruct p; cbn [opd_value]; intros A B C; try exact (eq_trans B (eq_sym C));
    destruct B as (x & B & ->), C as (y & C & ->); rewrite (known_opd_unique _ _ _ _ A B C); reflexivity.
Qed.
Lemma opds_cons p l : opds_ok (p :: l) = true -> opds_ok [p] = true /\ opds_ok l = true.
Proof. cbn [opds_ok forallb]. rewrite andb_true_r. apply andb_true_iff. Qed.

Lemma raises_same h t o o' : raises h t o -> raises h t o' -> same_outcome o o'.
Proof.
  intros (h1 & -> & A & (B & B') & C & D) (h2 & -> & A' & (B2 & B2') & C' & D'). split; [reflexivity |].
  split; [intros n; rewrite A, A'; reflexivity |]. split; [split; [intros n; rewrite B, B2; reflexivity | congruence] |].
  split; [intros n; rewrite C, C'; reflexivity | congruence].
Qed.
Lemma writes_same h h1 h2 n v : writes_x h h1 n v -> writes_x h h2 n v -> keeps_x h1 h2.
Proof.
  intros (A & B & C) (A' & B' & C') k. destruct (Z.eq_dec k n) as [-> | N]; [| rewrite C, C' by exact N; reflexivity].
  destruct (Z.eq_dec n 0) as [-> | N]; [rewrite B, B' by reflexivity; reflexivity | rewrite A, A' by exact N; reflexivity].
Qed.
Lemma keeps_f_same h h1 h2 : keeps_f h h1 -> keeps_f h h2 -> keeps_f h1 h2.
Proof. intros [A B] [A' B']. split; [intros n; rewrite A, A'; reflexivity | congruence]. Qed.
Lemma keeps_m_same h h1 h2 : keeps_m h h1 -> keeps_m h h2 -> keeps_m h1 h2.
Proof. intros A A' n. rewrite A, A'. reflexivity. Qed.
Lemma keeps_x_same h h1 h2 : keeps_x h h1 -> keeps_x h h2 -> keeps_x h1 h2.
Proof. intros A A' n. rewrite A, A'. reflexivity. Qed.
Lemma writes_f_same h h1 h2 n v : writes_f h h1 n v -> writes_f h h2 n v -> keeps_f h1 h2.
Proof.
  intros (A & B & C) (A' & B' & C'). split; [| congruence]. intros k.
  destruct (Z.eq_dec k n) as [-> | N]; [congruence | rewrite B, B' by exact N; reflexivity].
Qed.
Lemma done_same h1 h2 : keeps_x h1 h2 -> keeps_f h1 h2 -> keeps_m h1 h2 -> hpc h2 = hpc h1 -> same_outcome (Done h1) (Done h2).
Proof. intros A B C D. exact (conj A (conj B (conj C D))). Qed.
Lemma transfers_same xlen size h link c o o' : transfers xlen size h link c o -> transfers xlen size h link c o' -> same_outcome o o'.
Proof.
  unfold transfers. destruct (c_trap c); [apply raises_same |].
  intros (h1 & -> & F & M & P & X) (h2 & -> & F' & M' & P' & X'). apply done_same.
  - destruct (c_link c), link; try exact (keeps_x_same _ _ _ X X'). exact (writes_same _ _ _ _ _ X X').
  - exact (keeps_f_same _ _ _ F F').
  - exact (keeps_m_same _ _ _ M M').
  - congruence.
Qed.
Lemma stored_same (h h1 h2 : hart) a b x :
  (forall y, touches a b y -> hm h1 y = x / 2 ^ (8 * (y - a)) mod 256) -> (forall y, ~ touches a b y -> hm h1 y = hm h y) ->
  (forall y, touches a b y -> hm h2 y = x / 2 ^ (8 * (y - a)) mod 256) -> (forall y, ~ touches a b y -> hm h2 y = hm h y) -> keeps_m h1 h2.
Proof.
  intros A B A' B' y. assert (D : touches a b y \/ ~ touches a b y) by (unfold touches; lia).
  destruct D as [D | D]; [rewrite A, A' by exact D | rewrite B, B' by exact D]; reflexivity.
Qed.

Ltac same_values :=
  repeat match goal with
  | H : _ && _ = true |- _ => apply andb_true_iff in H; destruct H
  | H : opds_ok (_ :: _ :: _) = true |- _ => apply opds_cons in H; destruct H
  end;
  repeat match goal with
  | H : dest_ok ?d = true, A : names ?w ?d ?n, B : names ?w ?d ?n' |- _ =>
      assert (n = n') by exact (names_unique _ _ _ _ H A B); subst n'; clear B
  | H : opds_ok [?p] = true, A : opd_value _ ?w ?h ?p ?n, B : opd_value _ ?w ?h ?p ?n' |- _ =>
      assert (n = n') by exact (value_unique _ _ _ _ _ _ H A B); subst n'; clear B
  | H : known_opd ?o = true, A : encodes ?o ?w ?n, B : encodes ?o ?w ?n' |- _ =>
      assert (n = n') by exact (known_opd_unique _ _ _ _ H A B); subst n'; clear B
  end.
Lemma executes_same xlen c limit size i w h o o' : xlen = 32 \/ xlen = 64 -> instr_ok i = true ->
  executes xlen c limit size i w h o -> executes xlen c limit size i w h o' -> same_outcome o o'.
Proof.
  intros XL OK. assert (X0 : 0 <= xlen) by (destruct XL; subst; discriminate).
  destruct i as [op d p q | op d o1 | d p | d p q | k p q s | k d p q | k p q s | dbl fd p q | dbl p q fs |];
    cbn [instr_ok] in OK; cbn [executes].
  - intros (n & va & vb & r & h1 & N & A & B & R & -> & X & F & M & P) (n' & va' & vb' & r' & h2 & N' & A' & B' & R' & -> & X' & F' & M' & P').
    same_values. assert (r = r') by exact (rd_unique _ _ _ _ _ _ XL R R'). subst r'.
    apply done_same; [exact (writes_same _ _ _ _ _ X X') | exact (keeps_f_same _ _ _ F F') | exact (keeps_m_same _ _ _ M M') | congruence].
  - intros (n & v & r & h1 & N & A & R & -> & X & F & M & P) (n' & v' & r' & h2 & N' & A' & R' & -> & X' & F' & M' & P').
    same_values. assert (r = r') by exact (rd_unique _ _ _ _ _ _ XL R R'). subst r'.
    apply done_same; [exact (writes_same _ _ _ _ _ X X') | exact (keeps_f_same _ _ _ F F') | exact (keeps_m_same _ _ _ M M') | congruence].
  - intros (n & v & N & A & T) (n' & v' & N' & A' & T'). same_values. exact (transfers_same _ _ _ _ _ _ _ T T').
  - intros (n & b & v & N & B & A & T) (n' & b' & v' & N' & B' & A' & T'). same_values. exact (transfers_same _ _ _ _ _ _ _ T T').
  - intros (n & b & v & N & B & A & T) (n' & b' & v' & N' & B' & A' & T'). same_values. exact (transfers_same _ _ _ _ _ _ _ T T').
  - intros (n & b & v & N & B & A & T) (n' & b' & v' & N' & B' & A' & T'). same_values. cbv zeta in T, T'.
    destruct (limit <? _); [exact (raises_same _ _ _ _ T T') |].
    destruct T as (r & h1 & R & -> & X & F & M & P), T' as (r' & h2 & R' & -> & X' & F' & M' & P').
    assert (r = r') by exact (loaded_unique _ _ _ _ _ _ X0 R R'). subst r'.
    apply done_same; [exact (writes_same _ _ _ _ _ X X') | exact (keeps_f_same _ _ _ F F') | exact (keeps_m_same _ _ _ M M') | congruence].
  - intros (b & v & x & N & B & A & T) (b' & v' & x' & N' & B' & A' & T'). same_values. cbv zeta in T, T'.
    destruct (limit <? _); [exact (raises_same _ _ _ _ T T') |].
    destruct T as (h1 & -> & X & F & P & M1 & M2), T' as (h2 & -> & X' & F' & P' & M1' & M2').
    apply done_same; [exact (keeps_x_same _ _ _ X X') | exact (keeps_f_same _ _ _ F F') | exact (stored_same h h1 h2 _ _ _ M1 M2 M1' M2') | congruence].
  - intros (n & b & v & N & B & A & T) (n' & b' & v' & N' & B' & A' & T'). same_values. cbv zeta in T, T'.
    destruct (hfs h =? 0); [exact (raises_same _ _ _ _ T T') |].
    destruct (limit <? _); [exact (raises_same _ _ _ _ T T') |].
    destruct T as (r & h1 & R & -> & X & F & M & P), T' as (r' & h2 & R' & -> & X' & F' & M' & P').
    assert (r = r').
    { destruct dbl; [refine (loaded_unique _ _ _ _ _ _ _ R R'); lia |].
      destruct R as (x & L & Bx), R' as (x' & L' & Bx'). assert (x = x') by (refine (loaded_unique _ _ _ _ _ _ _ L L'); lia).
      subst x'. exact (boxed_unique _ _ _ Bx Bx'). }
    subst r'.
    apply done_same; [exact (keeps_x_same _ _ _ F F') | exact (writes_f_same _ _ _ _ _ X X') | exact (keeps_m_same _ _ _ M M') | congruence].
  - intros (b & v & x & N & B & A & T) (b' & v' & x' & N' & B' & A' & T'). same_values. cbv zeta in T, T'.
    destruct (hfs h =? 0); [exact (raises_same _ _ _ _ T T') |].
    destruct (limit <? _); [exact (raises_same _ _ _ _ T T') |].
    destruct T as (h1 & -> & X & F & P & M1 & M2), T' as (h2 & -> & X' & F' & P' & M1' & M2').
    apply done_same; [exact (keeps_x_same _ _ _ X X') | exact (keeps_f_same _ _ _ F F') | exact (stored_same h h1 h2 _ _ _ M1 M2 M1' M2') | congruence].
  - intros (h1 & -> & X & F & M & P) (h2 & -> & X' & F' & M' & P').
    apply done_same; [exact (keeps_x_same _ _ _ X X') | exact (keeps_f_same _ _ _ F F') | exact (keeps_m_same _ _ _ M M') | congruence].
Qed.
