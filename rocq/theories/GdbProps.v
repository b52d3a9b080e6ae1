(** Theorems C96: the target description for GDB. *)
From Coq Require Import ZArith List String Ascii Bool Lia.
From Verif Require Import GdbSpec GdbModel.
Import ListNotations.
Local Open Scope string_scope.
Local Open Scope Z_scope.

(** ** Escaping *)
Lemma toggle_toggle c : Ascii.eqb (toggle (toggle c)) c = true.
Proof. destruct c as [[] [] [] [] [] [] [] []]; reflexivity. Qed.
Definition harmless (c : ascii) : bool :=
  implb (Ascii.eqb c "$" || Ascii.eqb c "#" || Ascii.eqb c "*" || Ascii.eqb c "}") (negb (reserved (toggle c))) &&
  implb (negb (Ascii.eqb c "$" || Ascii.eqb c "#" || Ascii.eqb c "*" || Ascii.eqb c "}")) (negb (reserved c) && negb (Ascii.eqb c "}")).
Lemma harmless_all c : harmless c = true.
Proof. destruct c as [[] [] [] [] [] [] [] []]; reflexivity. Qed.
(** Every text is restored by GDB, and no reserved character is sent. *)
Theorem gdb_escape : forall s, unescape (EscapeString s) = s /\ forallb (fun c => negb (reserved c)) (EscapeString s) = true.
Proof.
  induction s as [| c s [U F]]; [split; reflexivity |]. cbn [EscapeString]. pose proof (harmless_all c) as H. unfold harmless in H.
  apply andb_true_iff in H. destruct H as [H1 H2]. destruct (Ascii.eqb c "$" || Ascii.eqb c "#" || Ascii.eqb c "*" || Ascii.eqb c "}")%char.
  - cbn [implb] in H1. split.
    + change (unescape ("}"%char :: toggle c :: EscapeString s)) with (toggle (toggle c) :: unescape (EscapeString s)). rewrite U. f_equal.
      apply Ascii.eqb_eq, toggle_toggle.
    + cbn [forallb]. rewrite H1, F. reflexivity.
  - cbn [implb negb] in H2. apply andb_true_iff in H2. destruct H2 as [H2 H3]. split.
    + cbn [unescape]. rewrite negb_true_iff in H3. rewrite H3, U. reflexivity.
    + cbn [forallb]. rewrite H2, F. reflexivity.
Qed.
Print Assumptions gdb_escape.
Example gdb_escape_case : EscapeString (list_ascii_of_string "a}*") = ["a"%char; "}"%char; "]"%char; "}"%char; "010"%char].
Proof. reflexivity. Qed.

(** ** Registers *)
Definition all_targets : list target :=
  flat_map (fun g => flat_map (fun f => map (mk_target g f) [0; 128; 256; 512; 1024]) [0; 32; 64]) [32; 64].
Lemma possible_all t : possible t = true -> In t all_targets.
Proof.
  destruct t as [g f v]. unfold possible. cbn [gpr fpr vec]. rewrite !andb_true_iff, !existsb_exists. intros [[(x & G & E1) (y & F & E2)] (z & V & E3)].
  apply Z.eqb_eq in E1, E2, E3. subst. apply in_flat_map. exists x. split; [exact G |]. apply in_flat_map. exists y. split; [exact F |]. apply in_map. exact V.
Qed.
Definition lookup (m : list (Z * string)) (n : Z) : option string := option_map snd (find (fun e => fst e =? n) m).
Definition is_v (r : string) : bool := existsb (String.eqb r) (map fst (bank "v" 0)).
Definition is_x (r : string) : bool := existsb (String.eqb r) (map fst (bank "x" 0 ++ [("pc", 0)])%list).
Definition opt_eq (a b : option string) : bool :=
  match a, b with Some a, Some b => String.eqb a b | None, None => true | _, _ => false end.
Lemma opt_eq_eq a b : opt_eq a b = true -> a = b.
Proof. destruct a, b; cbn [opt_eq]; try discriminate; [intros E; apply String.eqb_eq in E; subst |]; reflexivity. Qed.

(** The description lists the registers of the target with their widths, numbered from 0 without gap. *)
Theorem gdb_described : forall t,
  map (fun r => (r_name r, r_bits r)) (gdb_target_xml t) = registers t /\
  map fst (numbered 0 (gdb_target_xml t)) = map Z.of_nat (seq 0 (List.length (registers t))).
Proof. intros t. unfold registers, gdb_target_xml. destruct (fpr t =? 0), (vec t =? 0); split; reflexivity. Qed.
Print Assumptions gdb_described.
Example gdb_described_case : In (98, mk_reg "vstart" 32 None) (numbered 0 (gdb_target_xml (mk_target 32 64 128))) /\
  List.length (gdb_target_xml (mk_target 32 64 128)) = 105%nat.
Proof. split; [apply (nth_error_In _ 98); reflexivity | reflexivity]. Qed.

(** On targets that have floating-point registers or no vector registers: a number stands for the same register for GDB
    and for the simulator, except for the vector registers proper, and the simulator knows no other numbers.  Missing: v0
    to v31, and vector targets without floating point, see gdb_vector_refuted. *)
Theorem gdb_numbers_partial : forall t, possible t = true -> fpr t <> 0 \/ vec t = 0 ->
  (forall n r, In (n, r) (numbered 0 (gdb_target_xml t)) -> is_v (r_name r) = false -> lookup (debug_register_map t) n = Some (r_name r)) /\
  (forall n s, lookup (debug_register_map t) n = Some s -> exists r, In (n, r) (numbered 0 (gdb_target_xml t)) /\ r_name r = s) /\
  lookup (debug_register_map t) GetPcRegister = Some "pc".
Proof.
  intros t _ K.
  assert (A : forallb (fun e => is_v (r_name (snd e)) || opt_eq (lookup (debug_register_map t) (fst e)) (Some (r_name (snd e)))) (numbered 0 (gdb_target_xml t)) = true /\
    forallb (fun e => existsb (fun k => (fst k =? fst e) && String.eqb (r_name (snd k)) (snd e)) (numbered 0 (gdb_target_xml t))) (debug_register_map t) = true /\
    lookup (debug_register_map t) GetPcRegister = Some "pc").
  { unfold gdb_target_xml, debug_register_map. destruct (Z.eqb_spec (fpr t) 0) as [F | F], (Z.eqb_spec (vec t) 0) as [V | V];
      try (exfalso; destruct K; contradiction); vm_compute; repeat split. }
  destruct A as (A & B & C). rewrite forallb_forall in A, B. split; [| split; [| exact C]].
  - intros n r I N. specialize (A (n, r) I). cbn [fst snd] in A. rewrite N in A. apply opt_eq_eq in A. exact A.
  - intros n s L. unfold lookup in L. destruct (find _ _) as [[k z] |] eqn:E; [| discriminate L]. cbn [option_map snd] in L. injection L as ->.
    apply find_some in E. cbn [fst] in E. destruct E as [E Q]. apply Z.eqb_eq in Q. subst k. specialize (B (n, s) E). apply existsb_exists in B.
    destruct B as ([k r] & I & Q). cbn [fst snd] in Q. apply andb_true_iff in Q. destruct Q as [Q1 Q2]. apply Z.eqb_eq in Q1. apply String.eqb_eq in Q2. subst k.
    exists r. split; assumption.
Qed.
Print Assumptions gdb_numbers_partial.
Example gdb_numbers_case : possible (mk_target 64 64 128) = true /\ lookup (debug_register_map (mk_target 64 64 128)) 43 = Some "f10".
Proof. split; reflexivity. Qed.

(** The integer registers and pc, which are the registers of the packet g, have the width described; so have the
    floating-point registers if they are as wide.  Missing: the other registers, see gdb_width_refuted. *)
Theorem gdb_width_partial : forall t, possible t = true -> forall n r, In (n, r) (numbered 0 (gdb_target_xml t)) ->
  (GetFirstGpr <= n <= GetLastGpr <-> In (r_name r, r_bits r) (bank "x" (gpr t) ++ [("pc", gpr t)])%list) /\
  (GetFirstGpr <= n <= GetLastGpr \/ (fpr t = gpr t /\ In (r_name r, r_bits r) (bank "f" (fpr t))) -> 8 * GetRegisterByteWidth t n = r_bits r).
Proof.
  intros t P n r I.
  assert (G : 8 * (gpr t / 8) = gpr t).
  { unfold possible in P. rewrite !andb_true_iff in P. destruct P as [[P _] _]. cbn [existsb] in P. rewrite !orb_true_iff, !Z.eqb_eq in P.
    destruct P as [-> | [-> | P]]; [reflexivity | reflexivity | discriminate P]. }
  assert (A : forallb (fun t => forallb (fun e => (0 <=? fst e) && eqb (fst e <=? 32) (is_x (r_name (snd e))) && implb (fst e <=? 32) (r_bits (snd e) =? gpr t))
    (numbered 0 (gdb_target_xml t))) all_targets = true) by (vm_compute; reflexivity).
  rewrite forallb_forall in A. specialize (A t (possible_all t P)). rewrite forallb_forall in A. specialize (A (n, r) I). cbn [fst snd] in A.
  rewrite !andb_true_iff in A. destruct A as [[A0 A1] A3]. apply Z.leb_le in A0. apply eqb_prop in A1.
  assert (XN : forall s b, In (s, b) (bank "x" (gpr t) ++ [("pc", gpr t)])%list <-> b = gpr t /\ In s (map fst (bank "x" 0 ++ [("pc", 0)])%list)).
  { intros s b. rewrite in_app_iff, map_app, in_app_iff. unfold bank. rewrite map_map. cbn [fst map In]. rewrite !in_map_iff. split.
    - intros [(i & E & S) | [E | []]]; apply pair_equal_spec in E; destruct E as [<- <-]; (split; [reflexivity |]); [left; exists i; split; [reflexivity | exact S] | right; left; reflexivity].
    - intros [-> [(i & <- & S) | [<- | []]]]; [left; exists i; split; [reflexivity | exact S] | right; left; reflexivity]. }
  assert (EX : forall s, existsb (String.eqb s) (map fst (bank "x" 0 ++ [("pc", 0)])%list) = true <-> In s (map fst (bank "x" 0 ++ [("pc", 0)])%list)).
  { intros s. rewrite existsb_exists. split; [intros (z & Z1 & Z2); apply String.eqb_eq in Z2; subst z; exact Z1 | intros H; exists s; split; [exact H | apply String.eqb_refl]]. }
  change (forall s, is_x s = true <-> In s (map fst (bank "x" 0 ++ [("pc", 0)])%list)) in EX.
  rewrite XN, <- EX, <- A1. change GetFirstGpr with 0. change GetLastGpr with 32. unfold GetRegisterByteWidth. destruct (Z.leb_spec n 32) as [L | L].
  - cbn [implb] in A3. apply Z.eqb_eq in A3. split; [| intros _; rewrite G; symmetry; exact A3]. split; [intros _; split; [exact A3 | reflexivity] | intros _; exact (conj A0 L)].
  - split; [split; [lia | intros [_ H]; discriminate H] |]. intros [M | [E M]]; [lia |]. unfold bank in M. apply in_map_iff in M. destruct M as (i & Q & _).
    apply pair_equal_spec in Q. destruct Q as [_ <-]. rewrite E. exact G.
Qed.
Print Assumptions gdb_width_partial.

(** No vector register has a number in the simulator; without floating point no vector control register has the number GDB
    uses. *)
Theorem gdb_vector_refuted : forall t, possible t = true -> vec t <> 0 ->
  (exists n, In (n, mk_reg "v0" (vec t) (Some n)) (numbered 0 (gdb_target_xml t))) /\
  (forall n r, In (n, r) (numbered 0 (gdb_target_xml t)) -> is_v (r_name r) = true \/ (fpr t = 0 /\ In (r_name r) vector_csrs) ->
     lookup (debug_register_map t) n <> Some (r_name r)).
Proof.
  intros t _ V. split.
  - unfold gdb_target_xml. destruct (Z.eqb_spec (vec t) 0) as [E | _]; [contradiction |].
    destruct (fpr t =? 0); [exists 33; apply (nth_error_In _ 33) | exists 66; apply (nth_error_In _ 66)]; reflexivity.
  - assert (A : forallb (fun e => implb (is_v (r_name (snd e)) || ((fpr t =? 0) && existsb (String.eqb (r_name (snd e))) vector_csrs))
       (negb (opt_eq (lookup (debug_register_map t) (fst e)) (Some (r_name (snd e)))))) (numbered 0 (gdb_target_xml t)) = true).
    { unfold gdb_target_xml, debug_register_map. destruct (Z.eqb_spec (vec t) 0) as [E | _]; [contradiction |]. destruct (fpr t =? 0); vm_compute; reflexivity. }
    intros n r I K L. rewrite forallb_forall in A. specialize (A (n, r) I). cbn [fst snd] in A. rewrite L in A. cbn [opt_eq] in A. rewrite String.eqb_refl in A.
    destruct K as [K | [F K]]; [rewrite K in A; discriminate A |]. rewrite F in A.
    assert (X : existsb (String.eqb (r_name r)) vector_csrs = true) by (apply existsb_exists; exists (r_name r); split; [exact K | apply String.eqb_refl]).
    rewrite X, orb_true_r in A. discriminate A.
Qed.
Print Assumptions gdb_vector_refuted.
Example gdb_vector_case : possible (mk_target 64 0 128) = true /\ In "vl" vector_csrs. Proof. split; [reflexivity | vm_compute; tauto]. Qed.
(** On RV32 with doubles, f0 is described with 64 bits and transferred with 32; on RV64, fcsr is described with 32 bits and
    transferred with 64. *)
Theorem gdb_width_refuted :
  (In (33, mk_reg "f0" 64 (Some 33)) (numbered 0 (gdb_target_xml (mk_target 32 64 0))) /\ 8 * GetRegisterByteWidth (mk_target 32 64 0) 33 = 32) /\
  (In (65, mk_reg "fcsr" 32 (Some 65)) (numbered 0 (gdb_target_xml (mk_target 64 64 0))) /\ 8 * GetRegisterByteWidth (mk_target 64 64 0) 65 = 64).
Proof. repeat split; [apply (nth_error_In _ 33); reflexivity | apply (nth_error_In _ 65); reflexivity]. Qed.
Print Assumptions gdb_width_refuted.

(** ** Instances *)
Definition small : list target := filter (fun t => vec t <? 256) all_targets.
Definition target_eqb (a b : target) : bool := (gpr a =? gpr b) && (fpr a =? fpr b) && (vec a =? vec b).
Lemma target_eqb_eq a b : target_eqb a b = true -> a = b.
Proof.
  destruct a as [a1 a2 a3], b as [b1 b2 b3]. unfold target_eqb. cbn [gpr fpr vec]. rewrite !andb_true_iff, !Z.eqb_eq. intros [[-> ->] ->]. reflexivity.
Qed.
Lemma key_injective a b k : In a small -> In b small -> key a = Some k -> key b = Some k -> a = b.
Proof.
  intros A B KA KB.
  assert (C : forallb (fun a => forallb (fun b => implb (match key a, key b with Some x, Some y => x =? y | _, _ => false end) (target_eqb a b)) small) small = true)
    by (vm_compute; reflexivity).
  rewrite forallb_forall in C. specialize (C a A). rewrite forallb_forall in C. specialize (C b B). rewrite KA, KB, Z.eqb_refl in C. apply target_eqb_eq. exact C.
Qed.
Lemma small_key t : In t small -> exists k, key t = Some k.
Proof.
  intros A. assert (C : forallb (fun a => match key a with Some _ => true | None => false end) small = true) by (vm_compute; reflexivity).
  rewrite forallb_forall in C. specialize (C t A). destruct (key t) as [k |]; [exists k; reflexivity | discriminate C].
Qed.
Lemma checks t m : Instance t m = if possible t then match key t with None => (Undefined, m) | Some k =>
  match find (fun e => fst e =? k) m with Some (_, i) => (Info i, m) | None => (Info t, (k, t) :: m) end end else (Null, m).
Proof.
  unfold Instance, possible. cbn [existsb].
  destruct (gpr t =? 32), (gpr t =? 64), (fpr t =? 0), (fpr t =? 32), (fpr t =? 64), (vec t =? 0), (vec t =? 128), (vec t =? 256), (vec t =? 512), (vec t =? 1024); reflexivity.
Qed.
Definition sound (m : list (Z * target)) : Prop := forall k i, In (k, i) m -> In i small /\ key i = Some k.
Lemma instance_sound t m : vec t < 256 -> sound m -> fst (Instance t m) = (if possible t then Info t else Null) /\ sound (snd (Instance t m)).
Proof.
  intros V S. rewrite checks. destruct (possible t) eqn:P; [| exact (conj eq_refl S)].
  assert (T : In t small) by (apply filter_In; split; [apply possible_all; exact P | apply Z.ltb_lt; exact V]).
  destruct (small_key t T) as [k K]. rewrite K. destruct (find _ m) as [[j i] |] eqn:F.
  - apply find_some in F. cbn [fst] in F. destruct F as [F Q]. apply Z.eqb_eq in Q. subst j. destruct (S k i F) as [I1 I2].
    rewrite (key_injective i t k I1 T I2 K). exact (conj eq_refl S).
  - split; [reflexivity |]. cbn [snd]. intros j i [E | E]; [| exact (S j i E)]. apply pair_equal_spec in E. destruct E as [<- <-]. exact (conj T K).
Qed.
(** After every history of calls, for any widths, with vector registers of at most 128 bits: the instance is the one for
    the widths asked for, and there is one exactly for the possible widths.  Missing: wider vector registers. *)
Theorem gdb_instance_partial : forall l t, Forall (fun u => vec u < 256) l -> vec t < 256 ->
  fst (Instance t (calls l)) = if possible t then Info t else Null.
Proof.
  intros l t L V. apply instance_sound; [exact V |]. unfold calls. assert (S : sound []) by (intros k i []). revert S. generalize (@nil (Z * target)).
  induction L as [| u l U L IH]; intros m S; [exact S |]. cbn [fold_left]. apply IH. exact (proj2 (instance_sound u m U S)).
Qed.
Print Assumptions gdb_instance_partial.
Example gdb_instance_case : fst (Instance (mk_target 32 64 128) (calls [mk_target 64 64 0; mk_target 32 64 0; mk_target 33 0 0])) = Info (mk_target 32 64 128) /\
  possible (mk_target 32 64 128) = true.
Proof. split; reflexivity. Qed.
(** For vector registers of 256, 512 and 1024 bits (--vlen=32, 64, 128) the behaviour is undefined, whatever came before;
    with the usual wrap-around the key would be that of the target without vector registers. *)
Theorem gdb_instance_refuted : forall t m, possible t = true -> 256 <= vec t -> fst (Instance t m) = Undefined /\ (vec t * 2 ^ 24) mod 2 ^ 32 = 0.
Proof.
  intros t m P V. rewrite checks, P. apply possible_all in P. unfold all_targets in P. cbn [flat_map map app In] in P.
  repeat (destruct P as [<- | P]; [first [exfalso; cbn [vec] in V; lia | split; reflexivity] |]). destruct P.
Qed.
Print Assumptions gdb_instance_refuted.
Example gdb_instance_refuted_case : possible (mk_target 64 64 256) = true. Proof. reflexivity. Qed.
