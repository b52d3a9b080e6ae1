(** Specification of the host-target interface (C90): system calls requested by a store to a watched byte.
    Nothing here refers to the model. *)
From Coq Require Import ZArith Bool List.
From Verif Require Import Bits Memory SemSpec.
Import ListNotations.
Local Open Scope Z_scope.

(** The host calls; -1 is failure.  Reads give the result and the [n] bytes of the buffer. *)
Record hposix (W : Type) := {
  h_openat : W -> Z -> list Z -> Z -> Z -> Z * W;
  h_lseek : W -> Z -> Z -> Z -> Z * W;
  h_read : W -> Z -> Z -> Z * list Z * W;
  h_write : W -> Z -> list Z -> Z * W;
  h_pread : W -> Z -> Z -> Z -> Z * list Z * W;
  h_pwrite : W -> Z -> list Z -> Z -> Z * W }.
Arguments h_openat {W}. Arguments h_lseek {W}. Arguments h_read {W}. Arguments h_write {W}. Arguments h_pread {W}. Arguments h_pwrite {W}.
(** Counts are in range; descriptor -1 is never open. *)
Definition hposix_ok {W} (H : hposix W) : Prop := forall w,
  (forall fd n, 0 <= n -> -1 <= fst (fst (h_read H w fd n)) <= n /\ length (snd (fst (h_read H w fd n))) = Z.to_nat n) /\
  (forall fd n o, 0 <= n -> -1 <= fst (fst (h_pread H w fd n o)) <= n /\ length (snd (fst (h_pread H w fd n o))) = Z.to_nat n) /\
  (forall o k, h_lseek H w (-1) o k = (-1, w)) /\
  (forall n, fst (fst (h_read H w (-1) n)) = -1 /\ snd (h_read H w (-1) n) = w) /\
  (forall l, h_write H w (-1) l = (-1, w)) /\
  (forall n o, fst (fst (h_pread H w (-1) n o)) = -1 /\ snd (h_pread H w (-1) n o) = w) /\
  (forall l o, h_pwrite H w (-1) l o = (-1, w)).

(** Call numbers. *)
Definition NR_openat := 56. Definition NR_close := 57. Definition NR_lseek := 62. Definition NR_read := 63. Definition NR_write := 64.
Definition NR_pread := 67. Definition NR_pwrite := 68. Definition NR_exit := 93.
Definition nr_all : list Z := [NR_openat; NR_close; NR_lseek; NR_read; NR_write; NR_pread; NR_pwrite; NR_exit].
(** Double word [i] of the parameter block at [p], and as a signed number. *)
Definition dw (m : mem) (p i : Z) : Z := load_le m (p + 8 * i) 8.
Definition sdw (m : mem) (p i : Z) : Z := sgn 64 (dw m p i).
(** The file calls on host descriptor [fd]: result, memory and host afterwards. *)
Definition fd_call {W} (H : hposix W) (fd : Z) (m : mem) (p : Z) (w : W) : option (Z * mem * W) :=
  let nr := dw m p 0 in let buf := dw m p 2 in let len := dw m p 3 in
  if nr =? NR_lseek then let (r, w) := h_lseek H w fd (sdw m p 2) (sgn 32 (dw m p 3)) in Some (r, m, w)
  else if nr =? NR_read then let '(r, l, w) := h_read H w fd len in Some (r, put_bytes m buf (firstn (Z.to_nat r) l), w)
  else if nr =? NR_write then let (r, w) := h_write H w fd (bytes_at m buf (Z.to_nat len)) in Some (r, m, w)
  else if nr =? NR_pread then let '(r, l, w) := h_pread H w fd len (sdw m p 4) in Some (r, put_bytes m buf (firstn (Z.to_nat r) l), w)
  else if nr =? NR_pwrite then let (r, w) := h_pwrite H w fd (bytes_at m buf (Z.to_nat len)) (sdw m p 4) in Some (r, m, w)
  else None.
(** The response: the result over the first double word of the block, then 1 in the response byte. *)
Definition respond (m : mem) (p fr r : Z) : mem := store_le (store_le m p 8 r) fr 1 1.
(** A request is pending: the ready byte [tr] is 1 and the double word at [t] is for the system call device. *)
Definition pending (m : mem) (tr t : Z) : Prop := m tr = 1 /\ 0 <= load_le m t 8 < 2 ^ 48.

(** A host for the examples: descriptors 0 to 2 are open, openat gives 3; writes are logged with descriptor and offset. *)
Definition hdemo : hposix (list (Z * Z * list Z)) := {|
  h_openat w dir name fl md := (3, w ++ [(dir, 1000, name)]);
  h_lseek w fd o k := if fd =? -1 then (-1, w) else (o, w ++ [(fd, 2000 + k, [])]);
  h_read w fd n := (if fd =? -1 then -1 else Z.min n 1, firstn (Z.to_nat n) (7 :: repeat 9 (Z.to_nat n)), w);
  h_write w fd l := if fd =? -1 then (-1, w) else (Z.of_nat (length l), w ++ [(fd, -1, l)]);
  h_pread w fd n o := (if fd =? -1 then -1 else Z.min n 2, firstn (Z.to_nat n) (6 :: repeat 5 (Z.to_nat n)), w);
  h_pwrite w fd l o := if fd =? -1 then (-1, w) else (Z.of_nat (length l), w ++ [(fd, o, l)]) |}.
