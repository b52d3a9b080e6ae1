(** Specification of the register access for Renode (C99): numbers of the debug specification (abstract command register
    numbers; dpc for pc), names, and C strings.  Does not mention the model. *)
From Coq Require Import ZArith List String Ascii Bool.
From Verif Require Import CsrTabSpec.
Import ListNotations.
Local Open Scope string_scope.
Local Open Scope Z_scope.

Inductive reg := PC | X (n : nat) | F (n : nat) | V (n : nat).
Definition is_reg (r : reg) : Prop := match r with PC => True | X n | F n | V n => (n < 32)%nat end.
Definition reg_name (r : reg) : string :=
  match r with PC => "pc" | X n => "x" ++ numeral n | F n => "f" ++ numeral n | V n => "v" ++ numeral n end.
(** The debug specification has no number for vector registers. *)
Definition debug_number (r : reg) : option Z :=
  match r with PC => Some 0x7b1 | X n => Some (0x1000 + Z.of_nat n) | F n => Some (0x1020 + Z.of_nat n) | V _ => None end.
(** Width in bits on a machine with XLEN and FLEN. *)
Definition reg_width (xlen flen : Z) (r : reg) : Z := match r with PC | X _ => xlen | _ => flen end.
(** The characters up to the first NUL; none if there is no NUL. *)
Fixpoint c_string (l : list ascii) : option string :=
  match l with
  | [] => None
  | c :: r => if Ascii.eqb c Ascii.zero then Some "" else option_map (String c) (c_string r)
  end.
