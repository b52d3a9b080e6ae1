(** Specification for C27 and C60: push/pop of register lists and table jumps (Zcmp, Zcmt).
    Does not mention the model. *)
From Coq Require Import ZArith Bool List.
From Verif Require Import Bits Memory.
Import ListNotations.
Local Open Scope Z_scope.

(** Registers named by an rlist value: ra, s0, s1, ... s9, and s10 together with s11. *)
Definition saved_order : list Z := [1; 8; 9; 18; 19; 20; 21; 22; 23; 24; 25; 26; 27].
Definition rlist_regs (rlist : Z) : list Z :=
  if rlist <? 4 then [] else firstn (Z.to_nat (if rlist =? 15 then 13 else rlist - 3)) saved_order.
(** Bytes of one register. *)
Definition xbytes (w : Z) : Z := w / 8.
(** Space for the registers, rounded up to the 16-byte stack alignment. *)
Definition frame_base (w rlist : Z) : Z := 16 * ((xbytes w * Z.of_nat (length (rlist_regs rlist)) + 15) / 16).
(** Address of the j-th register of an n-register list: the last one is just below sp. *)
Definition slot (w sp : Z) (n j : nat) : Z := sp - xbytes w * (Z.of_nat n - Z.of_nat j).
Definition sp_reg := 2.
Definition regfile := Z -> Z.
