(** Specification for C76: the atomic instructions (A extension) of the RISC-V unprivileged manual, on one hart.
    Does not mention the model. *)
From Coq Require Import ZArith List String Bool.
From Verif Require Import Bits FmtSpec DecSpec Memory AccessSpec StepSpec.
Import ListNotations.
Local Open Scope string_scope.
Local Open Scope Z_scope.

Inductive amo_op := AmoSwap | AmoAdd | AmoXor | AmoAnd | AmoOr | AmoMin | AmoMax | AmoMinu | AmoMaxu.
(** The number is the number of bytes accessed. *)
Inductive amo_instr := Lr (n : nat) | Sc (n : nat) | Amo (op : amo_op) (n : nat).
Definition amo_bytes (i : amo_instr) : nat := match i with Lr n | Sc n | Amo _ n => n end.

Definition amo_common : list (string * amo_instr) :=
  [ ("lr.w", Lr 4); ("sc.w", Sc 4); ("amoswap.w", Amo AmoSwap 4); ("amoadd.w", Amo AmoAdd 4); ("amoxor.w", Amo AmoXor 4);
    ("amoand.w", Amo AmoAnd 4); ("amoor.w", Amo AmoOr 4); ("amomin.w", Amo AmoMin 4); ("amomax.w", Amo AmoMax 4);
    ("amominu.w", Amo AmoMinu 4); ("amomaxu.w", Amo AmoMaxu 4) ].
Definition amo_64 : list (string * amo_instr) :=
  [ ("lr.d", Lr 8); ("sc.d", Sc 8); ("amoswap.d", Amo AmoSwap 8); ("amoadd.d", Amo AmoAdd 8); ("amoxor.d", Amo AmoXor 8);
    ("amoand.d", Amo AmoAnd 8); ("amoor.d", Amo AmoOr 8); ("amomin.d", Amo AmoMin 8); ("amomax.d", Amo AmoMax 8);
    ("amominu.d", Amo AmoMinu 8); ("amomaxu.d", Amo AmoMaxu 8) ].
Definition amo_semantics (xlen : Z) (m : string) : option amo_instr :=
  option_map snd (find (fun p => String.eqb (fst p) m) (amo_common ++ (if xlen =? 32 then [] else amo_64))%list).

(** The value an atomic operation on [bits]-bit numbers leaves in memory: [old] was there, [x] is the operand. *)
Definition amo_value (op : amo_op) (bits old x : Z) : Z :=
  match op with
  | AmoSwap => x
  | AmoAdd => (old + x) mod 2 ^ bits
  | AmoXor => Z.lxor old x
  | AmoAnd => Z.land old x
  | AmoOr => Z.lor old x
  | AmoMin => if sgn bits old <? sgn bits x then old else x
  | AmoMax => if sgn bits old <? sgn bits x then x else old
  | AmoMinu => if old <? x then old else x
  | AmoMaxu => if old <? x then x else old
  end.
(** [v] is the little-endian number in the [n] bytes at [a]; the memory with that number replaced. *)
Definition word_at (m : mem) (a : Z) (n : nat) (v : Z) : Prop :=
  0 <= v < 2 ^ (8 * Z.of_nat n) /\ forall k, 0 <= k < Z.of_nat n -> v / 2 ^ (8 * k) mod 256 = m (a + k).
Definition stored (m m' : mem) (a : Z) (n : nat) (v : Z) : Prop :=
  word_at m' a n v /\ forall y, ~ touches a n y -> m' y = m y.
Definition amo_kind (n : nat) : load_kind := if Nat.eqb n 4 then Lw else Ld.
Definition aligned (a : Z) (n : nat) : Prop := a mod Z.of_nat n = 0.

(** Executing [i], encoded by [w], in state [h].  A misaligned or inaccessible address raises an exception (of an
    lr: load; of the others: store): misaligned or access fault; the manual allows both for a misaligned address.  The
    register gets the sign-extended value that was in memory; of an sc, zero if it stored and non-zero if not, which
    it may do for any reason. *)
Definition amo_executes (xlen limit : Z) (i : amo_instr) (w : Z) (h : hart) (out : outcome) : Prop :=
  exists rd rs1 rs2, encodes o_rd w rd /\ encodes o_rs1 w rs1 /\ encodes o_rs2 w rs2 /\
  let a := hx h rs1 in
  let n := amo_bytes i in
  let bits := 8 * Z.of_nat n in
  let misaligned code := {| t_tval := a; t_code := code; t_epc := hpc h |} in
  let fault := match i with Lr _ => load_fault a (hpc h) | _ => store_fault a (hpc h) end in
  if negb (a mod Z.of_nat n =? 0)
  then raises h (misaligned (match i with Lr _ => 4 | _ => 6 end)) out \/ raises h fault out
  else if limit <? a then raises h fault out
  else exists r h', out = Done h' /\ writes_x h h' rd r /\ keeps_f h h' /\ hpc h' = (hpc h + 4) mod 2 ^ xlen /\
    match i with
    | Lr _ => loaded xlen (amo_kind n) (hm h) a r /\ keeps_m h h'
    | Sc _ => 0 <= r < 2 ^ xlen /\
        (r = 0 /\ stored (hm h) (hm h') a n (hx h rs2 mod 2 ^ bits) \/ r <> 0 /\ keeps_m h h')
    | Amo op _ => loaded xlen (amo_kind n) (hm h) a r /\
        exists old, word_at (hm h) a n old /\ stored (hm h) (hm h') a n (amo_value op bits old (hx h rs2 mod 2 ^ bits))
    end.
(** In state [h] the word [iw] is an atomic instruction at an aligned, accessible address. *)
Definition amo_regular (xlen limit : Z) (D : decoder_spec) (h : hart) (iw : Z) (m : string) (i : amo_instr) : Prop :=
  iw mod 4 = 3 /\ (exists e, In e (ds_manual D) /\ means e iw /\ mnemonic e = m) /\ amo_semantics xlen m = Some i /\
  ~ listed (ds_missing D) m iw /\
  forall rs1, encodes o_rs1 iw rs1 -> aligned (hx h rs1) (amo_bytes i) /\ hx h rs1 <= limit.
