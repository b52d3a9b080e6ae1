(** C97: the CSRs of each simulator have the numbers the manual gives. *)
From Coq Require Import ZArith List String Bool Lia.
From Verif Require Import CsrSpec CsrModel CsrTabSpec CsrTabModel.
Import ListNotations.
Local Open Scope string_scope.
Local Open Scope Z_scope.

(** XLEN. *)
Definition width (rv32 : bool) : Z := if rv32 then 32 else 64.

(** ---- lookups are membership ---- *)
Lemma found_index : forall s n c, snd (csr_set_step s (TblGetIndex n)) = TFound c -> In (n, c) (cm_index s).
Proof.
  intros s n c. cbn [csr_set_step snd]. unfold find_index. destruct (find _ _) as [[k d] |] eqn:F; [| discriminate].
  intros E. injection E as <-. apply find_some in F. destruct F as [I Q]. cbn [fst] in Q. apply Z.eqb_eq in Q. subst k. exact I.
Qed.
Definition pair_eqb (a b : string * Z) : bool := (snd a =? snd b) && String.eqb (fst a) (fst b).
Lemma pair_in : forall a l, existsb (pair_eqb a) l = true -> In a l.
Proof.
  intros [s n] l H. apply existsb_exists in H. destruct H as ([t k] & I & E). unfold pair_eqb in E. cbn [fst snd] in E.
  apply andb_true_iff in E. destruct E as [E1 E2]. apply Z.eqb_eq in E1. apply String.eqb_eq in E2. subst. exact I.
Qed.
Lemma name_in : forall s l, In s l <-> existsb (String.eqb s) l = true.
Proof.
  intros s l. rewrite existsb_exists. split.
  - intros I. exists s. split; [exact I | apply String.eqb_refl].
  - intros (t & I & E). apply String.eqb_eq in E. subst t. exact I.
Qed.

(** Construction never fails: no two registers share a number or a name. *)
Theorem csr_construction_succeeds : forall rv32 fp vector r, In r (snd (built rv32 fp vector)) -> r = TOk.
Proof.
  assert (K : forall rv32 fp vector, forallb (fun r => match r with TOk => true | _ => false end) (snd (built rv32 fp vector)) = true)
    by (intros [] [] []; vm_compute; reflexivity).
  intros rv32 fp vector r I. pose proof (proj1 (forallb_forall _ _) (K rv32 fp vector) r I) as E.
  destruct r; try discriminate E. reflexivity.
Qed.
Print Assumptions csr_construction_succeeds.
Example csr_construction_example : List.length (snd (built true true true)) = 184%nat /\ List.length (snd (built false false false)) = 109%nat.
Proof. vm_compute. split; reflexivity. Qed.

(** Whatever an instruction can address (12 bits) is the register the manual has at that number, but for instreth. *)
Theorem csr_number_means_register_partial : forall rv32 fp vector n c,
  snd (csr_set_step (fst (built rv32 fp vector)) (TblGetIndex n)) = TFound c -> 0 <= n < 4096 -> co_name c <> "instreth" ->
  In (co_name c, n) (prescribed (width rv32)).
Proof.
  assert (K : forall rv32 fp vector, forallb (fun e => (4096 <=? fst e) || String.eqb (co_name (snd e)) "instreth" ||
      existsb (pair_eqb (co_name (snd e), fst e)) (prescribed (width rv32))) (cm_index (fst (built rv32 fp vector))) = true)
    by (intros [] [] []; vm_compute; reflexivity).
  intros rv32 fp vector n c F B N. apply found_index in F.
  pose proof (proj1 (forallb_forall _ _) (K rv32 fp vector) (n, c) F) as E. cbn [fst snd] in E.
  apply orb_true_iff in E. destruct E as [E | E]; [| exact (pair_in _ _ E)].
  apply orb_true_iff in E. destruct E as [E | E].
  - apply Z.leb_le in E. lia.
  - apply String.eqb_eq in E. contradiction.
Qed.
Print Assumptions csr_number_means_register_partial.

(** Registers of the manual that are not there. *)
Definition missing (fp vector : bool) : list string :=
  (["mvendorid"; "marchid"; "mimpid"; "mcounteren"; "satp"; "instreth"] ++ (if fp then [] else fp_registers) ++ (if vector then [] else vector_registers))%list.
(** All others are found, by number and by name alike, as one object. *)
Theorem csr_register_found_partial : forall rv32 fp vector s n, In (s, n) (prescribed (width rv32)) -> ~ In s (missing fp vector) ->
  exists c, snd (csr_set_step (fst (built rv32 fp vector)) (TblGetIndex n)) = TFound c /\
            snd (csr_set_step (fst (built rv32 fp vector)) (TblGetName s)) = TFound c /\ co_name c = s /\ co_index c = n.
Proof.
  assert (K : forall rv32 fp vector, let t := fst (built rv32 fp vector) in let i := cm_index t in let m := cm_name t in
    forallb (fun e => existsb (String.eqb (fst e)) (missing fp vector) ||
      match find_index (snd e) i, find_name (fst e) m with
      | Some c, Some d => String.eqb (co_name c) (fst e) && (co_index c =? snd e) && String.eqb (co_name d) (fst e) && (co_index d =? snd e) && (co_id c =? co_id d)
      | _, _ => false
      end) (prescribed (width rv32)) = true) by (intros [] [] []; vm_compute; reflexivity).
  intros rv32 fp vector s n I N. pose proof (proj1 (forallb_forall _ _) (K rv32 fp vector) (s, n) I) as E. cbn [fst snd] in E.
  apply orb_true_iff in E. destruct E as [E | E]; [exfalso; apply N; apply name_in; exact E |].
  cbn [csr_set_step snd]. destruct (find_index n _) as [[nc ic dc] |]; [| discriminate E]. destruct (find_name s _) as [[nd id dd] |]; [| discriminate E].
  cbn [co_name co_index co_id] in E. repeat (apply andb_true_iff in E; destruct E as [E ?]).
  repeat match goal with H : String.eqb _ _ = true |- _ => apply String.eqb_eq in H | H : (_ =? _) = true |- _ => apply Z.eqb_eq in H end.
  subst. exists {| co_name := s; co_index := n; co_id := dd |}. repeat split.
Qed.
Print Assumptions csr_register_found_partial.
Example csr_found_example : In ("mhpmcounter17h", 0xb91) (prescribed (width true)) /\ ~ In "mhpmcounter17h" (missing false true).
Proof. split; [apply pair_in; vm_compute; reflexivity |]. rewrite name_in. vm_compute. discriminate. Qed.

(** On RV32 the high half of cycle, time, mcycle, minstret and hpmcounter<n> is that of the counter named without the "h", 0x80
    below. *)
Theorem csr_high_half_partial : forall fp vector s n c, In (s, n) high_halves -> s <> "instreth" -> String.prefix "mhpmcounter" s = false ->
  snd (csr_set_step (fst (built true fp vector)) (TblGetIndex n)) = TFound c ->
  option_map c_refers (object_at true fp vector c) = Some (HighOf (n - 0x80)) /\
  exists low, snd (csr_set_step (fst (built true fp vector)) (TblGetIndex (n - 0x80))) = TFound low /\ (co_name low ++ "h")%string = s.
Proof.
  assert (K : forall fp vector, let t := fst (built true fp vector) in let i := cm_index t in let l := created true fp vector in
    forallb (fun e => String.eqb (fst e) "instreth" || String.prefix "mhpmcounter" (fst e) ||
      match find_index (snd e) i, find_index (snd e - 0x80) i with
      | Some c, Some low => match option_map c_refers (nth_error l (Z.to_nat (co_id c))) with
                            | Some (HighOf k) => (k =? snd e - 0x80) && String.eqb (co_name low ++ "h") (fst e) | _ => false end
      | _, _ => false
      end) high_halves = true) by (intros [] []; vm_compute; reflexivity).
  intros fp vector s n c I N P F. pose proof (proj1 (forallb_forall _ _) (K fp vector) (s, n) I) as E. cbn [fst snd] in E.
  rewrite P, orb_false_r in E. apply orb_true_iff in E. destruct E as [E | E]; [apply String.eqb_eq in E; contradiction |].
  cbn [csr_set_step snd] in F |- *. destruct (find_index n _) as [d |]; [| discriminate E]. injection F as ->.
  destruct (find_index (n - 128) _) as [low |]; [| discriminate E]. unfold object_at.
  destruct (option_map c_refers _) as [[| k |] |]; try discriminate E. apply andb_true_iff in E. destruct E as [E1 E2].
  apply Z.eqb_eq in E1. apply String.eqb_eq in E2. subst k. split; [reflexivity |]. exists low. split; [reflexivity | exact E2].
Qed.
Print Assumptions csr_high_half_partial.
Example csr_high_half_example : In ("hpmcounter31h", 0xc9f) high_halves /\
  exists c, snd (csr_set_step (fst (built true false false)) (TblGetIndex 0xc9f)) = TFound c /\ co_name c = "hpmcounter31h".
Proof. split; [apply pair_in; vm_compute; reflexivity |]. eexists. split; vm_compute; reflexivity. Qed.

(** instreth (0xc82) is not there on RV32: it sits at 0x82, a number of writable user registers. *)
Theorem csr_instreth_refuted : forall fp vector, number_of 32 "instreth" = Some 0xc82 /\ read_only 0xc82 = true /\
  snd (csr_set_step (fst (built true fp vector)) (TblGetIndex 0xc82)) = TNotFound /\
  (exists c, snd (csr_set_step (fst (built true fp vector)) (TblGetIndex 0x082)) = TFound c /\ co_name c = "instreth") /\
  (forall s, ~ In (s, 0x082) (prescribed 32)) /\ read_only 0x082 = false.
Proof.
  intros fp vector. assert (P : forall s, ~ In (s, 0x082) (prescribed 32)).
  { assert (Q : forallb (fun e => negb (snd e =? 0x082)) (prescribed 32) = true) by (vm_compute; reflexivity).
    intros s I. pose proof (proj1 (forallb_forall _ _) Q _ I) as E. discriminate E. }
  split; [vm_compute; reflexivity |]. split; [reflexivity |]. split; [destruct fp, vector; vm_compute; reflexivity |].
  split; [destruct fp, vector; eexists; split; vm_compute; reflexivity |]. split; [exact P | reflexivity].
Qed.
Print Assumptions csr_instreth_refuted.

(** On RV32 every mhpmcounter<n>h refers to memory outside the counter. *)
Theorem csr_mhpmcounterh_refuted : forall fp vector s n c, In (s, n) (family "mhpmcounter" "h" 0xb80 3 29) ->
  snd (csr_set_step (fst (built true fp vector)) (TblGetIndex n)) = TFound c -> option_map c_refers (object_at true fp vector c) = Some Outside.
Proof.
  assert (K : forall fp vector, let t := fst (built true fp vector) in let i := cm_index t in let l := created true fp vector in
    forallb (fun e => match find_index (snd e) i with
      | Some c => match option_map c_refers (nth_error l (Z.to_nat (co_id c))) with Some Outside => true | _ => false end
      | _ => false
      end) (family "mhpmcounter" "h" 0xb80 3 29) = true) by (intros [] []; vm_compute; reflexivity).
  intros fp vector s n c I F. pose proof (proj1 (forallb_forall _ _) (K fp vector) (s, n) I) as E. cbn [fst snd] in E.
  cbn [csr_set_step snd] in F. destruct (find_index n _) as [d |]; [| discriminate E]. injection F as ->. unfold object_at.
  destruct (option_map c_refers _) as [[| k |] |]; try discriminate E. reflexivity.
Qed.
Print Assumptions csr_mhpmcounterh_refuted.
Example csr_mhpmcounterh_example : exists c, snd (csr_set_step (fst (built true true false)) (TblGetIndex 0xb83)) = TFound c /\ co_name c = "mhpmcounter3h".
Proof. eexists. split; vm_compute; reflexivity. Qed.

(** Registers the manual requires are not there, in any simulator. *)
Theorem csr_required_refuted : forall rv32 fp vector s, In s ["mvendorid"; "marchid"; "mimpid"; "mcounteren"; "satp"] ->
  In s required /\ exists n, number_of (width rv32) s = Some n /\ snd (csr_set_step (fst (built rv32 fp vector)) (TblGetIndex n)) = TNotFound.
Proof.
  assert (K : forall rv32 fp vector, let i := cm_index (fst (built rv32 fp vector)) in
    forallb (fun s => existsb (String.eqb s) required && match number_of (width rv32) s with
      | Some n => match find_index n i with None => true | _ => false end | None => false end)
      ["mvendorid"; "marchid"; "mimpid"; "mcounteren"; "satp"] = true) by (intros [] [] []; vm_compute; reflexivity).
  intros rv32 fp vector s I. pose proof (proj1 (forallb_forall _ _) (K rv32 fp vector) s I) as E. apply andb_true_iff in E. destruct E as [E1 E2].
  split; [apply name_in; exact E1 |]. destruct (number_of (width rv32) s) as [n |]; [| discriminate E2]. exists n. split; [reflexivity |].
  cbn [csr_set_step snd]. destruct (find_index n _); [discriminate E2 | reflexivity].
Qed.
Print Assumptions csr_required_refuted.
