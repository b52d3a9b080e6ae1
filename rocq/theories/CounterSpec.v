(** Specification of counter CSRs (C08, C09): a counter is a plain register that also
    advances by one per event. *)
From Coq Require Import ZArith Bool List.
From Verif Require Import Bits CsrSpec.
Import ListNotations.
Local Open Scope Z_scope.

(** One event source, several counter CSRs attached to it. *)
Inductive ctr_op :=
| Events (n : Z)                (* the event happens n times *)
| Access (k : nat) (o : csr_op). (* CSR access to counter k *)

Definition apply_op (w : Z) (x : Z) (o : csr_op) : Z :=
  match o with
  | CsrWrite v => wrap w v
  | CsrSetBits v => wrap w (Z.lor x v)
  | CsrClearBits v => wrap w (Z.ldiff x v)
  end.

Fixpoint upd {A} (k : nat) (f : A -> A) (l : list A) : list A :=
  match l, k with
  | [], _ => []
  | x :: l', O => f x :: l'
  | x :: l', S k' => x :: upd k' f l'
  end.

(** Values of all counters. *)
Definition ctr_spec_step (w : Z) (vals : list Z) (o : ctr_op) : list Z :=
  match o with
  | Events n => map (fun x => wrap w (x + n)) vals
  | Access k o => upd k (fun x => apply_op w x o) vals
  end.

Definition ctr_op_ok (w : Z) (o : ctr_op) : bool :=
  match o with
  | Events n => 0 <=? n
  | Access _ (CsrWrite v) | Access _ (CsrSetBits v) | Access _ (CsrClearBits v) => (0 <=? v) && (v <? 2 ^ w)
  end.

(** ** RV32: two 32-bit CSRs showing one 64-bit counter. *)
Inductive pair_op := PEvents (n : Z) | PWriteLow (v : Z) | PWriteHigh (v : Z).
Definition pair_spec_step (x : Z) (o : pair_op) : Z :=
  match o with
  | PEvents n => wrap 64 (x + n)
  | PWriteLow v => (x / 2 ^ 32) * 2 ^ 32 + wrap 32 v
  | PWriteHigh v => wrap 32 v * 2 ^ 32 + wrap 32 x
  end.
