(** Specification for C46: the core-local interruptor.  Does not mention the model. *)
From Coq Require Import ZArith Bool List.
Import ListNotations.
Local Open Scope Z_scope.

(** What can happen to the device: the counter it is bound to changes, a bus access of
    [size] bytes, a reset. *)
Inductive clint_op :=
| Tick
| Load (addr size : Z)
| Store (addr size value : Z)
| Reset.

(** Register map (offsets in the 64 KB window). *)
Definition a_msip := 0x0000.
Definition a_mtimecmp := 0x4000.
Definition a_mtime := 0xbff8.
(** Does the operation write mtime? *)
Definition writes_mtime (o : clint_op) : bool :=
  match o with
  | Store a _ _ => let off := a mod 0x10000 in (off =? a_mtime) || (off =? a_mtime + 4)
  | Reset => true
  | _ => false
  end.
Definition ticks (l : list clint_op) : Z :=
  Z.of_nat (length (filter (fun o => match o with Tick => true | _ => false end) l)).
