(** Specification of the integer computational instructions (C20, C21, C24, C25, C26):
    RV32/64 I, M, Zba, Zbb, Zbc, Zbs, Zicond.  Does not mention the model.
    Register contents are integers in [0, 2^xlen); [sgn w x] is the two's complement
    reading of the low [w] bits of [x]. *)
From Coq Require Import ZArith Bool List.
From Verif Require Import Bits.
Import ListNotations.
Local Open Scope Z_scope.

Inductive iop :=
| Add | Sub | Slt | Sltu | And | Or | Xor | Sll | Srl | Sra | Lui | Auipc
| Addw | Subw | Sllw | Srlw | Sraw
| Mul | Mulh | Mulhu | Mulhsu | Div | Divu | Rem | Remu | Mulw | Divw | Divuw | Remw | Remuw
| AddUw | ShAdd (n : Z) | ShAddUw (n : Z) | SlliUw
| Andn | Orn | Xnor | Not | Clz | Clzw | Ctz | Ctzw | Cpop | Cpopw
| Max | Maxu | Min | Minu | SextB | SextH | ZextB | ZextH | ZextW
| Rol | Rolw | Ror | Rorw | Orcb | Rev8
| Clmul | Clmulh | Clmulr
| Bclr | Bext | Binv | Bset
| CzeroEqz | CzeroNez.

(** Instructions that exist only on RV64. *)
Definition rv64_only (op : iop) : bool :=
  match op with
  | Addw | Subw | Sllw | Srlw | Sraw | Mulw | Divw | Divuw | Remw | Remuw
  | AddUw | ShAddUw _ | SlliUw | Clzw | Ctzw | Cpopw | Rolw | Rorw | ZextW => true
  | _ => false
  end.
(** Immediate shift counts the decoder can produce: 1..3 for shNadd, 0..63 for slli.uw. *)
Definition iop_args_ok (op : iop) (b : Z) : Prop :=
  match op with ShAdd n | ShAddUw n => 1 <= n <= 3 | SlliUw => 0 <= b < 64 | _ => True end.

(** Sign extension of a 32-bit result to 64 bits. *)
Definition sext32 (x : Z) : Z := sgn 32 x mod 2 ^ 64.

(** [n] is the number of leading / trailing zeros of the [w]-bit value [a]. *)
Definition leading_zeros (w a n : Z) : Prop :=
  0 <= n <= w /\ (forall i, w - n <= i < w -> Z.testbit a i = false) /\ (n < w -> Z.testbit a (w - 1 - n) = true).
Definition trailing_zeros (w a n : Z) : Prop :=
  0 <= n <= w /\ (forall i, 0 <= i < n -> Z.testbit a i = false) /\ (n < w -> Z.testbit a n = true).
Definition ones_count (w a : Z) : Z := Z.of_nat (length (filter (Z.testbit a) (zrange w))).

(** Coefficient [k] of the product of the two polynomials over GF(2). *)
Definition xor_sum (f : Z -> bool) (n : Z) : bool := fold_right xorb false (map f (zrange n)).
Definition poly_coeff (w a b k : Z) : bool :=
  xor_sum (fun j => Z.testbit b j && Z.testbit a (k - j)) w.

(** Signed and unsigned division tables of the M extension. *)
Definition div_spec (w a b : Z) : Z :=
  if b =? 0 then -1 else if (a =? - 2 ^ (w - 1)) && (b =? -1) then a else Z.quot a b.
Definition rem_spec (w a b : Z) : Z :=
  if b =? 0 then a else if (a =? - 2 ^ (w - 1)) && (b =? -1) then 0 else Z.rem a b.

(** [iop_rel w op a b r]: on an xlen = [w] hart, operands [a] and [b] give [r].
    For Lui and Auipc [a] is the immediate already shifted by 12; for Auipc [b] is pc. *)
Definition bitwise (w r : Z) (f : Z -> bool) : Prop := forall i, 0 <= i < w -> Z.testbit r i = f i.
Definition iop_rel (w : Z) (op : iop) (a b r : Z) : Prop :=
  match op with
  | Add => r = (a + b) mod 2 ^ w
  | Sub => r = (a - b) mod 2 ^ w
  | Slt => r = if sgn w a <? sgn w b then 1 else 0
  | Sltu => r = if a <? b then 1 else 0
  | And => bitwise w r (fun i => Z.testbit a i && Z.testbit b i)
  | Or => bitwise w r (fun i => Z.testbit a i || Z.testbit b i)
  | Xor => bitwise w r (fun i => xorb (Z.testbit a i) (Z.testbit b i))
  | Sll => r = (a * 2 ^ (b mod w)) mod 2 ^ w
  | Srl => r = a / 2 ^ (b mod w)
  | Sra => r = (sgn w a / 2 ^ (b mod w)) mod 2 ^ w
  | Lui => r = sgn 32 (a - a mod 4096) mod 2 ^ w
  | Auipc => r = (b + sgn 32 (a - a mod 4096)) mod 2 ^ w
  | Addw => r = sext32 (a + b)
  | Subw => r = sext32 (a - b)
  | Sllw => r = sext32 (a * 2 ^ (b mod 32))
  | Srlw => r = sext32 (a mod 2 ^ 32 / 2 ^ (b mod 32))
  | Sraw => r = sext32 (sgn 32 a / 2 ^ (b mod 32))
  | Mul => r = (a * b) mod 2 ^ w
  | Mulh => r = (sgn w a * sgn w b / 2 ^ w) mod 2 ^ w
  | Mulhu => r = a * b / 2 ^ w
  | Mulhsu => r = (sgn w a * b / 2 ^ w) mod 2 ^ w
  | Div => r = div_spec w (sgn w a) (sgn w b) mod 2 ^ w
  | Divu => r = if b =? 0 then 2 ^ w - 1 else a / b
  | Rem => r = rem_spec w (sgn w a) (sgn w b) mod 2 ^ w
  | Remu => r = if b =? 0 then a else a mod b
  | Mulw => r = sext32 (a * b)
  | Divw => r = sext32 (div_spec 32 (sgn 32 a) (sgn 32 b))
  | Divuw => r = sext32 (if b mod 2 ^ 32 =? 0 then -1 else a mod 2 ^ 32 / (b mod 2 ^ 32))
  | Remw => r = sext32 (rem_spec 32 (sgn 32 a) (sgn 32 b))
  | Remuw => r = sext32 (if b mod 2 ^ 32 =? 0 then a else a mod 2 ^ 32 mod (b mod 2 ^ 32))
  | AddUw => r = (b + a mod 2 ^ 32) mod 2 ^ 64
  | ShAdd n => r = (b + a * 2 ^ n) mod 2 ^ w
  | ShAddUw n => r = (b + a mod 2 ^ 32 * 2 ^ n) mod 2 ^ 64
  | SlliUw => r = (a mod 2 ^ 32 * 2 ^ b) mod 2 ^ 64
  | Andn => bitwise w r (fun i => Z.testbit a i && negb (Z.testbit b i))
  | Orn => bitwise w r (fun i => Z.testbit a i || negb (Z.testbit b i))
  | Xnor => bitwise w r (fun i => negb (xorb (Z.testbit a i) (Z.testbit b i)))
  | Not => bitwise w r (fun i => negb (Z.testbit a i))
  | Clz => leading_zeros w a r
  | Clzw => leading_zeros 32 a r
  | Ctz => trailing_zeros w a r
  | Ctzw => trailing_zeros 32 a r
  | Cpop => r = ones_count w a
  | Cpopw => r = ones_count 32 a
  | Max => r = Z.max (sgn w a) (sgn w b) mod 2 ^ w
  | Maxu => r = Z.max a b
  | Min => r = Z.min (sgn w a) (sgn w b) mod 2 ^ w
  | Minu => r = Z.min a b
  | SextB => r = sgn 8 a mod 2 ^ w
  | SextH => r = sgn 16 a mod 2 ^ w
  | ZextB => r = a mod 2 ^ 8
  | ZextH => r = a mod 2 ^ 16
  | ZextW => r = a mod 2 ^ 32
  | Rol => bitwise w r (fun i => Z.testbit a ((i - b) mod w))
  | Ror => bitwise w r (fun i => Z.testbit a ((i + b) mod w))
  | Rolw => bitwise 64 r (fun i => Z.testbit a ((Z.min i 31 - b) mod 32))
  | Rorw => bitwise 64 r (fun i => Z.testbit a ((Z.min i 31 + b) mod 32))
  | Orcb => bitwise w r (fun i => negb (a / 2 ^ (8 * (i / 8)) mod 256 =? 0))
  | Rev8 => bitwise w r (fun i => Z.testbit a (w - 8 - 8 * (i / 8) + i mod 8))
  | Clmul => bitwise w r (fun i => poly_coeff w a b i)
  | Clmulh => bitwise w r (fun i => poly_coeff w a b (i + w))
  | Clmulr => bitwise w r (fun i => poly_coeff w a b (i + w - 1))
  | Bclr => bitwise w r (fun i => Z.testbit a i && negb (i =? b mod w))
  | Bext => r = if Z.testbit a (b mod w) then 1 else 0
  | Binv => bitwise w r (fun i => xorb (Z.testbit a i) (i =? b mod w))
  | Bset => bitwise w r (fun i => Z.testbit a i || (i =? b mod w))
  | CzeroEqz => r = if b =? 0 then 0 else a
  | CzeroNez => r = if b =? 0 then a else 0
  end.

(** The instruction writes all of rd: the new contents of rd are [r] with
    0 <= r < 2^xlen, whatever was there before. *)
Definition rd_rel (w : Z) (op : iop) (a b r : Z) : Prop := 0 <= r < 2 ^ w /\ iop_rel w op a b r.

(** ** Groups of instructions and side conditions used by the theorems. *)
Definition xlen_ok (w : Z) : Prop := w = 32 \/ w = 64.
Definition in_xlen (w : Z) (op : iop) : Prop := w = 64 \/ rv64_only op = false.
Definition base_op (op : iop) : bool :=
  match op with
  | Add | Sub | Slt | Sltu | And | Or | Xor | Sll | Srl | Sra | Lui | Auipc
  | Addw | Subw | Sllw | Srlw | Sraw => true
  | _ => false
  end.
Definition muldiv_op (op : iop) : bool :=
  match op with
  | Mul | Mulh | Mulhu | Mulhsu | Div | Divu | Rem | Remu | Mulw | Divw | Divuw | Remw | Remuw => true
  | _ => false
  end.
Definition clmul_op (op : iop) : bool := match op with Clmul | Clmulh | Clmulr => true | _ => false end.
Definition bitmanip_op (op : iop) : bool := negb (base_op op || muldiv_op op || clmul_op op).
(** The exact 32-bit signed result of the three word instructions computed in int32_t. *)
Definition word_exact (op : iop) (a b : Z) : option Z :=
  match op with
  | Addw => Some (sgn 32 a + sgn 32 b)
  | Subw => Some (sgn 32 a - sgn 32 b)
  | Mulw => Some (sgn 32 a * sgn 32 b)
  | _ => None
  end.
Definition no_word_overflow (op : iop) (a b : Z) : Prop :=
  forall x, word_exact op a b = Some x -> - 2 ^ 31 <= x < 2 ^ 31.
