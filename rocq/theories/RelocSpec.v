(** Specification of relocation entries (C94): which entry the assembler has to emit for an operand that names a symbol,
    after the RISC-V ELF psABI (relocation types) and its assembler modifiers %hi, %lo, %pcrel_hi, %pcrel_lo.  Does not
    mention the model. *)
From Coq Require Import ZArith List String Ascii Bool.
Import ListNotations.
Local Open Scope string_scope.
Local Open Scope Z_scope.

(** Texts are lists of (ASCII) characters. *)
Definition text := list ascii.
Definition chars (s : string) : text := list_ascii_of_string s.
Definition between (lo hi c : ascii) : bool := (nat_of_ascii lo <=? nat_of_ascii c)%nat && (nat_of_ascii c <=? nat_of_ascii hi)%nat.
Definition letter (c : ascii) : bool := between "a" "z" c || between "A" "Z" c || Ascii.eqb c "_".
Definition word (c : ascii) : bool := letter c || between "0" "9" c.
(** Space, tab, newline, form feed, carriage return. *)
Definition blank (c : ascii) : bool := existsb (Nat.eqb (nat_of_ascii c)) [9; 10; 12; 13; 32]%nat.
Definition blanks (t : text) : Prop := forallb blank t = true.
(** A symbol name: a letter or underscore, then letters, digits, underscores. *)
Definition symbol (t : text) : Prop := exists c r, t = c :: r /\ letter c = true /\ forallb word r = true.
(** A modifier name. *)
Definition modifier (t : text) : Prop := t <> [] /\ forallb word t = true.

(** The operand [t] names the symbol [sym], with the modifier [f] or without one. *)
Definition names (t : text) (f : option text) (sym : text) : Prop :=
  symbol sym /\
  match f with
  | None => exists a b, blanks a /\ blanks b /\ t = (a ++ sym ++ b)%list
  | Some f => modifier f /\ exists a b c d, blanks a /\ blanks b /\ blanks c /\ blanks d /\
      t = (a ++ "%"%char :: f ++ b ++ "("%char :: sym ++ c ++ ")"%char :: d)%list
  end.

(** The relocatable operands: upper immediates of lui and of auipc, immediates of the I format (loads, addi, jalr) and
    of the S format, targets of jumps and branches, of c.j and of c.beqz, c.bnez. *)
Inductive place := Lui | Auipc | Iimm | Simm | Jump | Branch | CJump | CBranch.
Definition eq_text (f : option text) (s : string) : bool :=
  match f with Some t => String.eqb (string_of_list_ascii t) s | None => false end.
(** The psABI relocation type: R_RISCV_HI20, PCREL_HI20, LO12_I, PCREL_LO12_I, LO12_S, PCREL_LO12_S, JAL, BRANCH,
    RVC_JUMP, RVC_BRANCH.  None: the combination does not exist. *)
Definition relocation_type (p : place) (f : option text) : option Z :=
  match p with
  | Lui => if eq_text f "hi" then Some 26 else None
  | Auipc => if eq_text f "pcrel_hi" then Some 23 else None
  | Iimm => if eq_text f "lo" then Some 27 else if eq_text f "pcrel_lo" then Some 24 else None
  | Simm => if eq_text f "lo" then Some 28 else if eq_text f "pcrel_lo" then Some 25 else None
  | Jump => match f with None => Some 17 | _ => None end
  | Branch => match f with None => Some 16 | _ => None end
  | CJump => match f with None => Some 45 | _ => None end
  | CBranch => match f with None => Some 44 | _ => None end
  end.

(** An entry: offset in the instruction, symbol, type, addend, section; the outcome: entries or an error. *)
Record entry := mk_entry { e_offset : Z; e_symbol : text; e_type : Z; e_addend : Z; e_section : Z }.
Inductive result := Entries (l : list entry) | Rejected.
(** The entry refers to the symbol, with the type prescribed; modifiers that do not fit the operand are rejected.  Nothing
    is said about an immediate that is a symbol without modifier (its value may be absolute). *)
Definition relocated (p : place) (f : option text) (sym : text) (r : result) : Prop :=
  match relocation_type p f with
  | Some ty => r = Entries [mk_entry 0 sym ty 0 0]
  | None => f <> None -> r = Rejected
  end.

(** The place of an operand, by the mnemonic of the simulator. *)
Definition places : list (string * place) :=
  [("lui", Lui); ("auipc", Auipc); ("addi", Iimm); ("addiw", Iimm); ("jalr", Iimm); ("jr", Iimm);
   ("ld", Iimm); ("lw", Iimm); ("lwu", Iimm); ("lh", Iimm); ("lhu", Iimm); ("lb", Iimm); ("lbu", Iimm); ("flw", Iimm); ("fld", Iimm);
   ("sd", Simm); ("sw", Simm); ("sh", Simm); ("sb", Simm); ("fsw", Simm); ("fsd", Simm);
   ("jal", Jump); ("j", Jump);
   ("beq", Branch); ("bne", Branch); ("blt", Branch); ("bltu", Branch); ("bge", Branch); ("bgeu", Branch);
   ("cj", CJump); ("cbeqz", CBranch); ("cbnez", CBranch)].
