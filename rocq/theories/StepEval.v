(** Evaluating the model on concrete states, for the examples and refutations of C73-C75. *)
From Coq Require Import ZArith List String Bool Lia.
From Verif Require Import Bits FmtSpec FmtModel FmtLink FmtProofs DecSpec DecManual DecModel DecCheck DecTables IntSpec Memory AccessSpec AccessModel StepSpec StepModel
  StepCheck StepProofs StepTables StepUnique.
Import ListNotations.
Local Open Scope string_scope.
Local Open Scope Z_scope.

(** The first opcode whose row applies. *)
Definition first_opcode (S : simulator) (iw : Z) : option string :=
  option_map r_name (if Z.land iw 3 =? 3 then find (fun r => applies r iw) (s_rows32 S)
                     else find (fun r => applies r (Z.land iw 0xffff)) (s_rows16 S)).
Lemma first_opcode_ok S iw o : first_opcode S iw = Some o -> sim_decodes S iw o.
Proof.
  unfold first_opcode, sim_decodes, decodes.
  destruct (Z.land iw 3 =? 3); (destruct (find _ _) as [r |] eqn:F; [| discriminate]); intros E; apply Some_inj in E; subst o;
    apply find_some in F; exists r; tauto.
Qed.
Definition exec_word (S : simulator) (lw : Z) (misa : option Z) (max : Z) (h : hart) (iw : Z) : option outcome :=
  match first_opcode S iw with Some o => exec_opcode S lw misa max h iw o | None => None end.
Lemma exec_word_ok S lw misa max h iw out : exec_word S lw misa max h iw = Some out -> sim_word S lw misa max h iw out.
Proof.
  unfold exec_word. destruct (first_opcode S iw) as [o |] eqn:F; [| discriminate]. intros E. left. exists o.
  split; [apply first_opcode_ok; exact F | exact E].
Qed.

(** A run with a cache that never drops an entry. *)
Fixpoint run_eval (S : simulator) (misa max : Z) (n : nat) (pc : Z) (h : hart) (c : cache) : option run_result :=
  match n with
  | O => Some (Ran (Done (set_pc (s_xlen S) h pc)))
  | Datatypes.S n =>
      match check_address misa max pc with
      | Some t => Some (Ran (Raise t (set_pc (s_xlen S) h pc)))
      | None =>
          if 2 ^ s_xlen S <=? pc then Some (Beyond pc h) else
          let iw := cached_word c h pc in
          match exec_word S 64 (Some misa) max (set_pc (s_xlen S) h pc) iw with
          | Some (Done h') => run_eval S misa max n (hpc h') h' (fun a => if a =? pc then Some iw else c a)
          | Some (Raise t h') => Some (Ran (Raise t h'))
          | None => None
          end
      end
  end.
Lemma run_eval_ok S misa max n : forall pc h c res, run_eval S misa max n pc h c = Some res -> top_run S misa max n pc h c res.
Proof.
  induction n as [| n IH]; intros pc h c res; cbn [run_eval].
  - intros E. apply Some_inj in E. subst res. apply run_end.
  - destruct (check_address misa max pc) as [t |] eqn:CA.
    { intros E. apply Some_inj in E. subst res. apply run_fault. exact CA. }
    destruct (Z.leb_spec (2 ^ s_xlen S) pc) as [L | L].
    { intros E. apply Some_inj in E. subst res. apply run_beyond; assumption. }
    destruct (exec_word _ _ _ _ _ _) as [[h' | t h'] |] eqn:X; [| | discriminate]; apply exec_word_ok in X.
    + intros E. eapply run_step; [exact L | exact CA | exact X | | apply IH; exact E].
      split; [left; rewrite Z.eqb_refl; reflexivity |]. intros b NE. left. apply Z.eqb_neq in NE. rewrite NE. reflexivity.
    + intros E. apply Some_inj in E. subst res. apply run_trap; assumption.
Qed.
Definition final (r : option run_result) (d : hart) : hart := match r with Some (Ran (Done h)) => h | _ => d end.
Definition finished (r : option run_result) : bool := match r with Some (Ran (Done _)) => true | _ => false end.
Lemma finished_ok r d : finished r = true -> r = Some (Ran (Done (final r d))).
Proof. destruct r as [[[h | t h] | pc h |] |]; cbn; intros E; try discriminate E; reflexivity. Qed.

(** Deciding [regular], apart from the state. *)
Definition word_is (D : decoder_spec) (m : string) (w : Z) : bool :=
  existsb (fun e => String.eqb (mnemonic e) m && forallb (holdsb w) (encoding e)) (ds_manual D).
Lemma regular_ok xlen c D32 D16 broken h iw m i : word_is (spec_of D32 D16 iw) m (word_of iw) = true ->
  semantics xlen m = Some i -> listedb (ds_missing (spec_of D32 D16 iw)) m (word_of iw) = false ->
  existsb (String.eqb m) broken = false -> ~ deviates xlen c m i (word_of iw) h -> regular xlen c D32 D16 broken h iw m i.
Proof.
  unfold word_is. rewrite existsb_exists. intros (e & He & E) S L B ND. apply andb_true_iff in E. rewrite String.eqb_eq, conds_ok in E.
  split; [exists e; tauto |]. split; [exact S |]. split; [| split; [| exact ND]].
  - intros X. apply listedb_ok in X. rewrite X in L. discriminate L.
  - intros X. assert (Y : existsb (String.eqb m) broken = true) by (apply existsb_exists; exists m; split; [exact X | apply String.eqb_refl]).
    rewrite Y in B. discriminate B.
Qed.
(** The mnemonics a word can have. *)
Definition mnemonics (man : list entry) (w : Z) : list string :=
  map mnemonic (filter (fun e => forallb (holdsb w) (encoding e)) man).
Lemma mnemonics_ok man w e : In e man -> means e w -> In (mnemonic e) (mnemonics man w).
Proof. intros He Me. apply in_map. apply filter_In. split; [exact He |]. apply conds_ok. exact Me. Qed.
Lemma unknown_ok D32 D16 iw : mnemonics (ds_manual (spec_of D32 D16 iw)) (word_of iw) = [] ->
  forallb (fun g => negb (forallb (holdsb (word_of iw)) (rg_conds g))) (ds_extra (spec_of D32 D16 iw)) = true -> unknown D32 D16 iw.
Proof.
  intros M E. split.
  - intros e He Me. pose proof (mnemonics_ok _ _ e He Me) as X. rewrite M in X. destruct X.
  - intros o (g & Hg & _ & F). rewrite forallb_forall in E. specialize (E g Hg). apply conds_ok in F. rewrite F in E. discriminate E.
Qed.
(** The value of an operand of a concrete word. *)
Lemma opd_is o fm fld w n k : agrees o fm fld = true -> extract fm fld w = k -> encodes o w n -> n = k.
Proof. intros A X E. subst k. exact (encodes_unique_lemma o fm fld w n _ A E (extract_encodes o fm fld w A)). Qed.

(** A program: words at consecutive addresses, zeros elsewhere. *)
Fixpoint program (base : Z) (ws : list Z) (a : Z) : Z :=
  match ws with
  | [] => 0
  | w :: ws => if (base <=? a) && (a <? base + 4) then w / 2 ^ (8 * (a - base)) mod 256 else program (base + 4) ws a
  end.
Lemma program_byte ws : forall base a, 0 <= program base ws a < 256.
Proof.
  induction ws as [| w ws IH]; intros base a; cbn [program]; [lia |]. destruct (_ && _); [apply Z.mod_pos_bound; lia | apply IH].
Qed.
(** A hart about to execute it: x registers given by a list (x1 first), FS Dirty. *)
Definition hart_at (pc : Z) (regs : list Z) (fs : Z) (ws : list Z) : hart :=
  {| hx := fun n => if n <=? 0 then 0 else nth (Z.to_nat (n - 1)) regs 0; hf := fun _ => 0; hpc := pc; hm := program pc ws; hfs := fs |}.
Lemma hart_at_ok xlen pc regs fs ws : 0 <= xlen -> forallb (fun v => (0 <=? v) && (v <? 2 ^ xlen)) regs = true -> 0 <= pc < 2 ^ xlen -> pc mod 2 = 0 ->
  hart_ok xlen (hart_at pc regs fs ws).
Proof.
  intros X R P E. assert (P2 : 0 < 2 ^ xlen) by (apply Z.pow_pos_nonneg; lia).
  constructor; cbn [hart_at hx hf hpc hm]; try assumption; [reflexivity | | intros n; split; [lia | reflexivity] | intros a; apply program_byte].
  intros n. destruct (n <=? 0); [lia |]. rewrite forallb_forall in R.
  destruct (nth_in_or_default (Z.to_nat (n - 1)) regs 0) as [H | ->]; [| lia].
  specialize (R _ H). apply andb_true_iff in R. rewrite Z.leb_le, Z.ltb_lt in R. exact R.
Qed.
Lemma fetched_const h iw : 0 <= iw < 2 ^ 32 ->
  iw mod 256 = hm h (hpc h) -> iw / 256 mod 256 = hm h (hpc h + 1) -> iw / 65536 mod 256 = hm h (hpc h + 2) ->
  iw / 16777216 mod 256 = hm h (hpc h + 3) -> fetched h iw.
Proof.
  intros R A B C D. split; [exact R |]. intros k Hk. assert (K : k = 0 \/ k = 1 \/ k = 2 \/ k = 3) by lia.
  destruct K as [-> | [-> | [-> | ->]]]; [rewrite Z.add_0_r; change (2 ^ (8 * 0)) with 1; rewrite Z.div_1_r | | |]; assumption.
Qed.
(** The outcome of one instruction. *)
Definition result (S : simulator) (misa : option Z) (max : Z) (h : hart) (iw : Z) : outcome :=
  match exec_word S (s_xlen S) misa max h iw with Some out => out | None => Raise (illegal (-1)) h end.
Definition has_result (S : simulator) (misa : option Z) (max : Z) (h : hart) (iw : Z) (o : string) : bool :=
  match first_opcode S iw with Some o' => String.eqb o o' | None => false end &&
  match exec_word S (s_xlen S) misa max h iw with Some _ => true | None => false end.
Lemma result_ok S misa max h iw o : has_result S misa max h iw o = true ->
  sim_decodes S iw o /\ sim_exec S misa max h iw o = Some (result S misa max h iw).
Proof.
  unfold has_result, result. intros H. apply andb_true_iff in H. destruct H as [A B].
  destruct (first_opcode S iw) as [o' |] eqn:F; [| discriminate A]. apply String.eqb_eq in A. subst o'.
  split; [apply first_opcode_ok; exact F |]. unfold exec_word in B |- *. rewrite F in B |- *. fold (sim_exec S) in B |- *.
  destruct (sim_exec S misa max h iw o); [reflexivity | discriminate B].
Qed.
Definition done (out : outcome) : bool := match out with Done _ => true | Raise _ _ => false end.
Definition state_of (out : outcome) : hart := match out with Done h | Raise _ h => h end.
Lemma done_ok out : done out = true -> out = Done (state_of out).
Proof. destruct out; [reflexivity | discriminate]. Qed.
