(** What a control/status register and the CSR table are supposed to do,
    independently of how the code does it (properties C01, C02, C03). *)
From Coq Require Import ZArith Bool List String.
Import ListNotations.
Local Open Scope Z_scope.

(** ** Operations offered on a CSR (riscv_csr.h:316-342). *)
Inductive csr_op :=
| CsrWrite (v : Z)      (* write a word *)
| CsrSetBits (v : Z)    (* set the bits that are 1 in v *)
| CsrClearBits (v : Z). (* clear the bits that are 1 in v *)

(** Behaviour of one writable bit: a flip-flop. *)
Definition bit_step (i : Z) (b : bool) (o : csr_op) : bool :=
  match o with
  | CsrWrite v => Z.testbit v i
  | CsrSetBits v => b || Z.testbit v i
  | CsrClearBits v => b && negb (Z.testbit v i)
  end.
Definition bit_run (i : Z) (b : bool) (ops : list csr_op) : bool :=
  fold_left (bit_step i) ops b.

(** Two views of one register: the register itself and its shadow. *)
Inductive view := ViaBase | ViaShadow.

(** Bit [i] of a register with write mask [wm] that also has a shadow view with
    write mask [swm]: an operation through a view reaches the bit only if every
    mask on its path selects it. *)
Definition reaches (wm swm i : Z) (v : view) : bool :=
  match v with
  | ViaBase => Z.testbit wm i
  | ViaShadow => Z.testbit swm i && Z.testbit wm i
  end.
Definition bit_run2 (wm swm i : Z) (b : bool) (ops : list (view * csr_op)) : bool :=
  fold_left (fun b '(v, o) => if reaches wm swm i v then bit_step i b o else b) ops b.

(** ** The CSR table: a set of registers, each with a name and a number. *)
Record csr_obj := { co_name : string; co_index : Z; co_id : Z }.

Inductive tbl_op :=
| TblAdd (c : option csr_obj)  (* None models a null pointer *)
| TblRemove (idx : Z)
| TblGetName (n : string)
| TblGetIndex (idx : Z).

Inductive tbl_out := TOk | TInvalid | TExists | TNotFound | TFound (c : csr_obj) | TUndefined.

Definition has_name (n : string) (c : csr_obj) : bool := String.eqb (co_name c) n.
Definition has_index (i : Z) (c : csr_obj) : bool := co_index c =? i.

(** The abstract table is just the collection of live registers. *)
Definition tbl_spec (live : list csr_obj) (o : tbl_op) : list csr_obj * tbl_out :=
  match o with
  | TblAdd None => (live, TInvalid)
  | TblAdd (Some c) =>
      if existsb (fun d => has_name (co_name c) d || has_index (co_index c) d) live
      then (live, TExists) else (c :: live, TOk)
  | TblRemove i =>
      if existsb (has_index i) live
      then (filter (fun d => negb (has_index i d)) live, TOk) else (live, TNotFound)
  | TblGetName n => (live, match find (has_name n) live with Some c => TFound c | None => TNotFound end)
  | TblGetIndex i => (live, match find (has_index i) live with Some c => TFound c | None => TNotFound end)
  end.

(** Running a history and collecting outputs. *)
Fixpoint run {S O R} (step : S -> O -> S * R) (s : S) (ops : list O) : S * list R :=
  match ops with
  | [] => (s, [])
  | o :: ops' => let (s1, r) := step s o in let (s2, rs) := run step s1 ops' in (s2, r :: rs)
  end.
