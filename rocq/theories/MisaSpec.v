(** Specification of misa (C95), after the privileged architecture, section 3.1.1.  Does not mention the model. *)
From Coq Require Import ZArith List Bool.
Import ListNotations.
Local Open Scope Z_scope.

(** What misa says: MXL (1: 32 bits, 2: 64 bits, 3: 128 bits) and one bit for each letter of the alphabet. *)
Record isa := mk_isa { mxl : Z; letters : Z }.
Definition has (i : isa) (letter : Z) : bool := Z.testbit (letters i) letter.
Definition letter_c : Z := 2.
Definition letter_s : Z := 18.
Definition letter_u : Z := 20.
(** The layout in a register of [w] bits: MXL in the two most significant bits, the letters in the 26 least significant,
    zero between. *)
Definition layout (w : Z) (i : isa) : Z := mxl i * 2 ^ (w - 2) + letters i.
(** What a register value of [w] bits says. *)
Definition isa_of (w v : Z) : isa := mk_isa (v / 2 ^ (w - 2)) (v mod 2 ^ 26).

(** Accesses: by CSR instructions of a machine of 32 or 64 bits (csrrw; csrrs; csrrc), and by the embedding program or the
    command line, which sets the whole value. *)
Inductive access := Write (w v : Z) | SetBits (w v : Z) | ClearBits (w v : Z) | Set64 (v : Z).
(** Instructions change nothing; setting does. *)
Definition after (i : isa) (a : access) : isa := match a with Set64 v => isa_of 64 v | _ => i end.
Definition after_all (i : isa) (l : list access) : isa := fold_left after l i.
(** Values have 64 bits. *)
Definition proper (a : access) : Prop := match a with Set64 v => 0 <= v < 2 ^ 64 | _ => True end.

(** The width MXL stands for; None for other values. *)
Definition width (m : Z) : option Z := if m =? 1 then Some 32 else if m =? 2 then Some 64 else None.
