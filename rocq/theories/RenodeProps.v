(** C99: Renode accesses the register it means. *)
From Coq Require Import ZArith List String Ascii Bool Lia.
From Verif Require Import CsrTabSpec RenodeSpec RenodeModel.
Import ListNotations.
Local Open Scope Z_scope.

(** The register with a number of the debug specification. *)
Definition reg_at (id : Z) : reg := if id =? 0x7b1 then PC else if id <? 0x1020 then X (Z.to_nat (id - 0x1000)) else F (Z.to_nat (id - 0x1020)).
Lemma in_bank : forall p b id s, In (id, s) (bank p b) -> exists i, (i < 32)%nat /\ id = b + Z.of_nat i.
Proof.
  intros p b id s I. unfold bank in I. apply in_map_iff in I. destruct I as (i & E & I). apply (f_equal fst) in E. cbn [fst] in E. apply in_seq in I.
  exists i. split; [lia | symmetry; exact E].
Qed.
Lemma known_ids : forall id s, In (id, s) debug_register_map -> is_reg (reg_at id) /\ debug_number (reg_at id) = Some id.
Proof.
  intros id s I. unfold debug_register_map in I. apply in_app_or in I. destruct I as [[E | []] | I].
  - injection E as <- <-. split; [exact Logic.I | reflexivity].
  - assert (B : (exists i, (i < 32)%nat /\ id = 0x1000 + Z.of_nat i) \/ (exists i, (i < 32)%nat /\ id = 0x1020 + Z.of_nat i)).
    { apply in_app_or in I. destruct I as [I | I]; [left; exact (in_bank _ _ _ _ I) |]. right. apply in_app_or in I. destruct I as [I | I]; exact (in_bank _ _ _ _ I). }
    unfold reg_at. destruct (Z.eqb_spec id 0x7b1) as [Q | _]; [destruct B as [(i & L & E) | (i & L & E)]; lia |].
    destruct B as [(i & L & ->) | (i & L & ->)].
    + destruct (Z.ltb_spec (0x1000 + Z.of_nat i) 0x1020); [| lia]. cbn [is_reg debug_number]. split; [lia | f_equal; lia].
    + destruct (Z.ltb_spec (0x1020 + Z.of_nat i) 0x1020); [lia |]. cbn [is_reg debug_number]. split; [lia | f_equal; lia].
Qed.
Lemma lookup_numbers : forall r id, is_reg r -> debug_number r = Some id -> map_find id = Some (reg_name r).
Proof.
  assert (KX : forallb (fun n => match map_find (0x1000 + Z.of_nat n) with Some s => String.eqb s (reg_name (X n)) | None => false end) (seq 0 32) = true)
    by (vm_compute; reflexivity).
  assert (KF : forallb (fun n => match map_find (0x1020 + Z.of_nat n) with Some s => String.eqb s (reg_name (F n)) | None => false end) (seq 0 32) = true)
    by (vm_compute; reflexivity).
  intros [| n | n | n] id R D; cbn [debug_number] in D; try discriminate D;
    apply (f_equal (fun o => match o with Some z => z | None => 0 end)) in D; cbv beta iota in D; subst id; cbn [is_reg] in R.
  - vm_compute. reflexivity.
  - pose proof (proj1 (forallb_forall _ _) KX n ltac:(apply in_seq; lia)) as E. cbv beta in E.
    destruct (map_find (0x1000 + Z.of_nat n)) as [s |]; [apply String.eqb_eq in E; subst s; reflexivity | discriminate E].
  - pose proof (proj1 (forallb_forall _ _) KF n ltac:(apply in_seq; lia)) as E. cbv beta in E.
    destruct (map_find (0x1020 + Z.of_nat n)) as [s |]; [apply String.eqb_eq in E; subst s; reflexivity | discriminate E].
Qed.

(** Every number accesses the register that has it in the debug specification; all other numbers are errors. *)
Theorem renode_register_access : forall id,
  (forall s, RegisterAccess id = Accesses s <-> exists r, is_reg r /\ debug_number r = Some id /\ reg_name r = s) /\
  (RegisterAccess id = NotFoundError <-> forall r, is_reg r -> debug_number r <> Some id).
Proof.
  intros id. unfold RegisterAccess. destruct (map_find id) as [t |] eqn:M.
  - assert (K : is_reg (reg_at id) /\ debug_number (reg_at id) = Some id).
    { unfold map_find in M. destruct (find _ _) as [[k u] |] eqn:Q; [| discriminate M]. apply find_some in Q. destruct Q as [I E].
      cbn [fst] in E. apply Z.eqb_eq in E. subst k. exact (known_ids id u I). }
    destruct K as [K1 K2]. split.
    + intros s. split.
      * intros E. injection E as <-. exists (reg_at id). split; [exact K1 |]. split; [exact K2 |].
        pose proof (lookup_numbers _ _ K1 K2) as L. rewrite M in L. injection L as L. symmetry. exact L.
      * intros (r & R & D & <-). pose proof (lookup_numbers r id R D) as L. rewrite M in L. injection L as ->. reflexivity.
    + split; [discriminate |]. intros H. exfalso. exact (H _ K1 K2).
  - split.
    + intros s. split; [discriminate |]. intros (r & R & D & <-). rewrite (lookup_numbers r id R D) in M. discriminate M.
    + split; [| reflexivity]. intros _ r R D. rewrite (lookup_numbers r id R D) in M. discriminate M.
Qed.
Print Assumptions renode_register_access.
Example renode_access_example : RegisterAccess 0x103f = Accesses "f31" /\ RegisterAccess 0x1000 = Accesses "x0" /\ RegisterAccess 0x1040 = NotFoundError.
Proof. vm_compute. repeat split. Qed.

(** No number accesses a vector register, though the table has entries for them: they have the numbers of f0 to f31. *)
Theorem renode_vector_refuted : forall n id, (n < 32)%nat -> RegisterAccess id <> Accesses (reg_name (V n)) /\
  In (0x1020 + Z.of_nat n, reg_name (V n)) debug_register_map /\ RegisterAccess (0x1020 + Z.of_nat n) = Accesses (reg_name (F n)).
Proof.
  intros n id L. split; [| split].
  - intros E. apply (proj1 (renode_register_access id)) in E. destruct E as (r & R & D & E). destruct r as [| m | m | m]; cbn in E; discriminate.
  - unfold debug_register_map. apply in_or_app. right. apply in_or_app. right. apply in_or_app. right. unfold bank.
    apply (in_map (fun i => (kV0 + Z.of_nat i, ("v" ++ numeral i)%string))). apply in_seq. lia.
  - apply (proj1 (renode_register_access _)). exists (F n). split; [exact L | split; reflexivity].
Qed.
Print Assumptions renode_vector_refuted.

(** ---- the list of registers ---- *)
Definition listed : list reg := (PC :: map X (seq 0 32) ++ map F (seq 0 32))%list.
Lemma strncpy_long : forall s buffer n, (String.length s < n)%nat -> (forall c, In c (list_ascii_of_string s) -> c <> Ascii.zero) ->
  c_string (strncpy buffer s n) = Some s.
Proof.
  intros s buffer n. unfold strncpy. generalize (skipn n buffer) as rest. intros rest.
  assert (G : forall m, (String.length s < n)%nat -> (n <= String.length s + m)%nat -> (forall c, In c (list_ascii_of_string s) -> c <> Ascii.zero) ->
    c_string (firstn n (list_ascii_of_string s ++ repeat Ascii.zero m) ++ rest) = Some s).
  { revert n. induction s as [| c s IH]; intros n m L1 L2 Z0; cbn [String.length] in *.
    - destruct n as [| n]; [lia |]. destruct m as [| m]; [lia |]. reflexivity.
    - destruct n as [| n]; [lia |]. cbn [list_ascii_of_string app firstn c_string].
      destruct (Ascii.eqb_spec c Ascii.zero) as [E | _]; [exfalso; exact (Z0 c (or_introl eq_refl) E) |].
      rewrite IH; [reflexivity | lia | lia |]. intros d I. apply Z0. right. exact I. }
  intros L Z0. apply G; [exact L | lia | exact Z0].
Qed.
Lemma strncpy_short : forall s n m, (n <= String.length s)%nat -> (forall c, In c (list_ascii_of_string s) -> c <> Ascii.zero) ->
  c_string (firstn n (list_ascii_of_string s ++ repeat Ascii.zero m)) = None.
Proof.
  induction s as [| c s IH]; intros n m L Z0; cbn [String.length] in L.
  - replace n with 0%nat by lia. reflexivity.
  - destruct n as [| n]; [reflexivity |]. cbn [list_ascii_of_string app firstn c_string].
    destruct (Ascii.eqb_spec c Ascii.zero) as [E | _]; [exfalso; exact (Z0 c (or_introl eq_refl) E) |].
    rewrite IH; [reflexivity | lia |]. intros d I. apply Z0. right. exact I.
Qed.
Lemma listed_info : forall i, match nth_error listed i with
  | Some r => exists info, nth_error renode_register_info i = Some info /\ debug_number r = Some (index info) /\ map_find (index info) = Some (reg_name r) /\
      (is_read_only info = true <-> r = X 0) /\ width info = 32 /\ (String.length (reg_name r) <= 3)%nat /\
      (forall c, In c (list_ascii_of_string (reg_name r)) -> c <> Ascii.zero)
  | None => nth_error renode_register_info i = None end.
Proof.
  intros i. destruct (Nat.lt_ge_cases i 65) as [L | L].
  - do 65 (destruct i as [| i]; [vm_compute; eexists; split; [reflexivity |]; cbn; repeat split; try reflexivity; try discriminate; try lia;
      intros c I; repeat (destruct I as [I | I]; [subst c; discriminate |]); destruct I |]). lia.
  - rewrite (proj2 (nth_error_None listed i)) by (cbn; lia). apply nth_error_None. cbn. lia.
Qed.

(** The list describes pc, x0 to x31 and f0 to f31, in this order; an index outside is an error; each entry has the register's
    number, x0 alone is read-only, and the name arrives if the buffer has room for it. *)
Theorem renode_info_partial : forall i max_len buffer, (3 < max_len)%nat ->
  match (if i <? 0 then None else nth_error listed (Z.to_nat i)), GetRenodeRegisterInfo i max_len buffer with
  | Some r, Some (info, name) => debug_number r = Some (index info) /\ c_string name = Some (reg_name r) /\ (is_read_only info = true <-> r = X 0) /\
                                 width info = reg_width 32 32 r
  | None, None => True
  | _, _ => False
  end.
Proof.
  intros i max_len buffer L. unfold GetRenodeRegisterInfo. destruct (Z.ltb_spec i 0) as [N | N]; [exact Logic.I |]. cbn [orb].
  pose proof (listed_info (Z.to_nat i)) as K. destruct (nth_error listed (Z.to_nat i)) as [r |].
  - destruct K as (info & E & D & M & R & W & S & Z0).
    destruct (Z.leb_spec (Z.of_nat (List.length renode_register_info)) i) as [O | O].
    + exfalso. rewrite (proj2 (nth_error_None renode_register_info (Z.to_nat i))) in E by lia. discriminate E.
    + rewrite E, M. split; [exact D |]. split; [apply strncpy_long; [lia | exact Z0] |]. split; [exact R |]. rewrite W. destruct r; reflexivity.
  - rewrite K. destruct (_ <=? _); exact Logic.I.
Qed.
Print Assumptions renode_info_partial.
Example renode_info_example : exists info name, GetRenodeRegisterInfo 64 16 (repeat "?"%char 16) = Some (info, name) /\ c_string name = Some "f31"%string /\ nth_error listed 64 = Some (F 31).
Proof. do 2 eexists. split; [vm_compute; reflexivity |]. split; vm_compute; reflexivity. Qed.

(** If the buffer is no longer than the name, what is written has no terminating NUL. *)
Theorem renode_name_refuted : forall i r max_len buffer, nth_error listed i = Some r -> (max_len <= String.length (reg_name r))%nat -> List.length buffer = max_len ->
  exists info name, GetRenodeRegisterInfo (Z.of_nat i) max_len buffer = Some (info, name) /\ c_string name = None.
Proof.
  intros i r max_len buffer E L B. pose proof (listed_info i) as K. rewrite E in K. destruct K as (info & F & D & M & R & W & S & Z0).
  unfold GetRenodeRegisterInfo. destruct (Z.ltb_spec (Z.of_nat i) 0); [lia |]. cbn [orb].
  destruct (Z.leb_spec (Z.of_nat (List.length renode_register_info)) (Z.of_nat i)) as [O | O].
  { exfalso. rewrite (proj2 (nth_error_None renode_register_info i)) in F by lia. discriminate F. }
  rewrite Nat2Z.id, F, M. do 2 eexists. split; [reflexivity |]. unfold strncpy. rewrite skipn_all2 by lia. rewrite app_nil_r.
  apply strncpy_short; assumption.
Qed.
Print Assumptions renode_name_refuted.
Example renode_name_example : nth_error listed 11 = Some (X 10) /\ (3 <= String.length (reg_name (X 10)))%nat.
Proof. vm_compute. split; [reflexivity | lia]. Qed.

(** On RV64 every register is reported with half its width. *)
Theorem renode_width_refuted : forall i r max_len buffer info name, nth_error listed i = Some r ->
  GetRenodeRegisterInfo (Z.of_nat i) max_len buffer = Some (info, name) -> width info = 32 /\ reg_width 64 64 r = 64.
Proof.
  intros i r max_len buffer info name E G. pose proof (listed_info i) as K. rewrite E in K. destruct K as (info' & F & _ & M & _ & W & _).
  unfold GetRenodeRegisterInfo in G. destruct (_ || _); [discriminate G |]. rewrite Nat2Z.id, F, M in G. injection G as <- _.
  split; [exact W | destruct r; reflexivity].
Qed.
Print Assumptions renode_width_refuted.
Example renode_width_example : exists info name, GetRenodeRegisterInfo 0 8 [] = Some (info, name).
Proof. do 2 eexists. vm_compute. reflexivity. Qed.
