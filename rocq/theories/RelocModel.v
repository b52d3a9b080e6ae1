(** Model of the relocations of the RV64G assembler (C94): riscv_bin_setters.cc, riscv_bin_setters.h:1012-1034 and
    riscv64g_bin_encoder_interface.cc:68-75.  Texts are ASCII (RE2 matches UTF-8). *)
From Coq Require Import ZArith List String Ascii Bool.
From Verif Require Import RelocSpec.
Import ListNotations.
Local Open Scope string_scope.
Local Open Scope Z_scope.

(** Model only: the parts regular expressions of this file consist of: c*, c+, c?, c, (a c+)?. *)
Inductive part := Star (c : ascii -> bool) | Plus (c : ascii -> bool) | Opt (c : ascii -> bool) | One (c : ascii -> bool)
  | OptGroup (a c : ascii -> bool).
(** Model only: the ways c* can match at the start of a text (matched, rest), in RE2's order of preference: longest
    first. *)
Fixpoint star (c : ascii -> bool) (t : text) : list (text * text) :=
  match t with
  | x :: r => if c x then (map (fun m => (x :: fst m, snd m)) (star c r) ++ [([], t)])%list else [([], t)]
  | [] => [([], [])]
  end.
(** Model only: the same for the other parts. *)
Definition plus (c : ascii -> bool) (t : text) : list (text * text) :=
  match t with x :: r => if c x then map (fun m => (x :: fst m, snd m)) (star c r) else [] | [] => [] end.
(** Model only. *)
Definition ways (p : part) (t : text) : list (text * text) :=
  match p with
  | Star c => star c t
  | Plus c => plus c t
  | Opt c => match t with x :: r => if c x then [([x], r); ([], t)] else [([], t)] | [] => [([], t)] end
  | One c => match t with x :: r => if c x then [([x], r)] else [] | [] => [] end
  | OptGroup a c => match t with
                    | x :: r => if a x then (map (fun m => (x :: fst m, snd m)) (plus c r) ++ [([], t)])%list else [([], t)]
                    | [] => [([], t)] end
  end.
(** Model only: RE2::FullMatch: the texts matched by the parts in each match of the whole text, in order of preference;
    RE2 returns the first. *)
Fixpoint full_matches (ps : list part) (t : text) : list (list text) :=
  match ps with
  | [] => match t with [] => [[]] | _ => [] end
  | p :: ps => flat_map (fun m => map (cons (fst m)) (full_matches ps (snd m))) (ways p t)
  end.

(** riscv_bin_setters.cc:52-53, kSymRe: ^\s*(%[a-zA-Z0-9_]+)?\s*\(?([a-zA-Z_][^)]+)\)?\s*$. *)
Definition kSymRe : list part :=
  [Star blank; OptGroup (Ascii.eqb "%") word; Star blank; Opt (Ascii.eqb "("); One letter;
   Plus (fun c => negb (Ascii.eqb ")" c)); Opt (Ascii.eqb ")"); Star blank].
(** Model only: the two captured texts, relo (empty if absent) and sym. *)
Definition sym_match (t : text) : option (text * text) :=
  match full_matches kSymRe t with
  | [_; relo; _; _; s1; s2; _; _] :: _ => Some (relo, (s1 ++ s2)%list)
  | _ => None
  end.
(** Model only: relo == s. *)
Definition is_text (t : text) (s : string) : bool := String.eqb (string_of_list_ascii t) s.
(** Model only: relocations.emplace_back(0, sym, type, 0, 0). *)
Definition emplace (sym : text) (ty : Z) : result := Entries [mk_entry 0 sym ty 0 0].

(** riscv_bin_setters.cc:55-74. *)
Definition RelocateAddiIImm12 (t : text) : result :=
  match sym_match t with
  | None => Entries []
  | Some (relo, sym) =>
      if is_text relo "%lo" then emplace sym 27
      else if is_text relo "%pcrel_lo" then emplace sym 24
      else if negb (is_text relo "") then Rejected else Entries []
  end.
(** riscv_bin_setters.cc:76-84. *)
Definition RelocateJJImm20 (t : text) : result :=
  match sym_match t with None => Entries [] | Some (relo, sym) => emplace sym 17 end.
(** riscv_bin_setters.cc:86-96. *)
Definition RelocateJrJImm12 (t : text) : result :=
  match sym_match t with
  | None => Entries []
  | Some (relo, sym) => if is_text relo "%pcrel_lo" then emplace sym 24 else Entries []
  end.
(** riscv_bin_setters.cc:98-106. *)
Definition RelocateLuiUImm20 (t : text) : result :=
  match sym_match t with None => Entries [] | Some (relo, sym) => emplace sym 26 end.
(** riscv_bin_setters.cc:108-127. *)
Definition RelocateSdSImm12 (t : text) : result :=
  match sym_match t with
  | None => Entries []
  | Some (relo, sym) =>
      if is_text relo "%lo" then emplace sym 28
      else if is_text relo "%pcrel_lo" then emplace sym 25
      else if negb (is_text relo "") then Rejected else Entries []
  end.
(** riscv_bin_setters.cc:129-139. *)
Definition RelocateAuipcUImm20 (t : text) : result :=
  match sym_match t with
  | None => Entries []
  | Some (relo, sym) => if is_text relo "%pcrel_hi" then emplace sym 23 else Entries []
  end.

(** riscv_bin_setters.h:1018-1033, AddRiscvSourceOpRelocationSetters: opcode, operand, function. *)
Definition relocation_source_op_map : list (string * string * (text -> result)) :=
  [("addi", "I_imm12", RelocateAddiIImm12); ("jal", "J_imm20", RelocateJJImm20); ("j", "J_imm20", RelocateJJImm20);
   ("jr", "J_imm12", RelocateJrJImm12); ("lui", "U_imm20", RelocateLuiUImm20); ("sd", "S_imm12", RelocateSdSImm12);
   ("jalr", "J_imm12", RelocateJrJImm12); ("auipc", "U_imm20", RelocateAuipcUImm20)].
(** riscv64g_bin_encoder_interface.cc:68-75, AppendSrcOpRelocation: no entry and no error without a function. *)
Definition AppendSrcOpRelocation (opcode operand : string) (t : text) : result :=
  match find (fun x => String.eqb (fst (fst x)) opcode && String.eqb (snd (fst x)) operand) relocation_source_op_map with
  | Some (_, fn) => fn t
  | None => Entries []
  end.

(** The operands marked relocatable in riscv64g.isa:60, 68, 116-120, 186-266, 775-779, 906-910, 1090-1106; only for these
    does the generated encoder call AppendSrcOpRelocation. *)
Definition relocatable : list (string * string) :=
  [("addi", "I_imm12"); ("addiw", "I_imm12"); ("lui", "U_imm20"); ("auipc", "U_imm20"); ("jal", "J_imm20"); ("jalr", "J_imm12");
   ("j", "J_imm20"); ("jr", "J_imm12"); ("beq", "B_imm12"); ("bne", "B_imm12"); ("blt", "B_imm12"); ("bltu", "B_imm12");
   ("bge", "B_imm12"); ("bgeu", "B_imm12"); ("ld", "I_imm12"); ("lw", "I_imm12"); ("lwu", "I_imm12"); ("lh", "I_imm12");
   ("lhu", "I_imm12"); ("lb", "I_imm12"); ("lbu", "I_imm12"); ("sd", "S_imm12"); ("sw", "S_imm12"); ("sh", "S_imm12");
   ("sb", "S_imm12"); ("flw", "I_imm12"); ("fsw", "S_imm12"); ("fld", "I_imm12"); ("fsd", "S_imm12"); ("cj", "I_cj_imm11");
   ("cbeqz", "I_cb_imm8"); ("cbnez", "I_cb_imm8")].
