(** Specification of the effect of executing one instruction word (C73-C75): integer computational
    instructions, control transfers, loads and stores, and the compressed forms of these, after the
    instruction descriptions of the RISC-V unprivileged manual.  Does not mention the model.  The encodings
    are those of DecManual.v, the operand layouts those of FmtSpec.v, the arithmetic that of IntSpec.v. *)
From Coq Require Import ZArith List String Bool.
From Verif Require Import Bits FmtSpec DecSpec IntSpec Memory AccessSpec.
Import ListNotations.
Local Open Scope string_scope.
Local Open Scope Z_scope.

(** The architectural state these instructions can see: x and f registers, pc, memory, mstatus.FS. *)
Record hart := { hx : Z -> Z; hf : Z -> Z; hpc : Z; hm : mem; hfs : Z }.
Record hart_ok (xlen : Z) (h : hart) : Prop := {
  ok_zero : hx h 0 = 0;
  ok_x : forall n, 0 <= hx h n < 2 ^ xlen;
  ok_f : forall n, 0 <= hf h n < 2 ^ 64;
  ok_pc : 0 <= hpc h < 2 ^ xlen;
  ok_even : hpc h mod 2 = 0;
  ok_m : byte_mem (hm h) }.

(** ** Instructions *)
(** Operands: a register named by a field of the word, a fixed register, an immediate field, a constant. *)
Inductive opd := Reg (o : operand) | RegN (n : Z) | Imm (o : operand) | ImmN (v : Z).
Inductive dest := Rd (o : operand) | RdN (n : Z).
Inductive instr :=
  | IOp (op : iop) (d : dest) (a b : opd)             (* rd = a op b *)
  | IUpper (op : iop) (d : dest) (o : operand)        (* lui, auipc *)
  | IJal (d : dest) (off : opd)
  | IJalr (d : dest) (base off : opd)
  | IBranch (c : branch) (a b off : opd)
  | ILoad (k : load_kind) (d : dest) (base off : opd)
  | IStore (k : store_kind) (base off v : opd)
  | IFload (dbl : bool) (fd : operand) (base off : opd)   (* dbl: 8 bytes, else 4 *)
  | IFstore (dbl : bool) (base off : opd) (fs : operand)
  | INop.

(** Value of an operand of the instruction word [w] in state [h]. *)
Definition opd_value (xlen w : Z) (h : hart) (p : opd) (v : Z) : Prop :=
  match p with
  | Reg o => exists n, encodes o w n /\ v = hx h n
  | RegN n => v = hx h n
  | Imm o => exists n, encodes o w n /\ v = n mod 2 ^ xlen
  | ImmN n => v = n mod 2 ^ xlen
  end.
Definition names (w : Z) (d : dest) (n : Z) : Prop :=
  match d with Rd o => encodes o w n | RdN m => n = m end.

(** ** Effects *)
Inductive outcome := Done (h' : hart) | Raise (t : trap_req) (h' : hart).
(** The state after an instruction that changes nothing but pc and what the arguments say: x register [xw],
    f register [fw] (the value being described by a predicate), memory. *)
Definition keeps_x (h h' : hart) : Prop := forall n, hx h' n = hx h n.
Definition keeps_f (h h' : hart) : Prop := (forall n, hf h' n = hf h n) /\ hfs h' = hfs h.
Definition keeps_m (h h' : hart) : Prop := forall a, hm h' a = hm h a.
(** x register [n] becomes [v], except that x0 stays 0; the others are kept. *)
Definition writes_x (h h' : hart) (n v : Z) : Prop :=
  (n <> 0 -> hx h' n = v) /\ (n = 0 -> hx h' 0 = hx h 0) /\ forall k, k <> n -> hx h' k = hx h k.
(** f register [n] becomes [v]; FS becomes Dirty. *)
Definition writes_f (h h' : hart) (n v : Z) : Prop :=
  hf h' n = v /\ (forall k, k <> n -> hf h' k = hf h k) /\ hfs h' = 3.
Definition unchanged (h h' : hart) : Prop := keeps_x h h' /\ keeps_f h h' /\ keeps_m h h' /\ hpc h' = hpc h.
(** A synchronous exception leaves the registers and the memory as they are. *)
Definition raises (h : hart) (t : trap_req) (out : outcome) : Prop :=
  exists h', out = Raise t h' /\ unchanged h h'.
(** Control transfers; [c] as in AccessSpec. *)
Definition transfers (xlen size : Z) (h : hart) (link : option Z) (c : ctl) (out : outcome) : Prop :=
  match c_trap c with
  | Some t => raises h t out
  | None => exists h', out = Done h' /\ keeps_f h h' /\ keeps_m h h' /\
      hpc h' = match c_pc c with Some t => t | None => (hpc h + size) mod 2 ^ xlen end /\
      match c_link c, link with Some v, Some n => writes_x h h' n v | _, _ => keeps_x h h' end
  end.
(** A 4-byte value in a 64-bit f register: all upper bits set. *)
Definition boxed (v r : Z) : Prop :=
  0 <= r < 2 ^ 64 /\ forall i, 0 <= i < 64 -> Z.testbit r i = if i <? 32 then Z.testbit v i else true.

(** [executes xlen has_c limit size i w h out]: on a hart with register width [xlen], with or without
    the C extension, whose highest accessible address is [limit], executing the instruction [i] encoded in [size]
    bytes by the word [w] in state [h] has outcome [out]. *)
Definition executes (xlen : Z) (has_c : bool) (limit size : Z) (i : instr) (w : Z) (h : hart) (out : outcome) : Prop :=
  let value := opd_value xlen w h in
  let next := (hpc h + size) mod 2 ^ xlen in
  match i with
  | IOp op d a b => exists n va vb r h',
      names w d n /\ value a va /\ value b vb /\ rd_rel xlen op va vb r /\
      out = Done h' /\ writes_x h h' n r /\ keeps_f h h' /\ keeps_m h h' /\ hpc h' = next
  | IUpper op d o => exists n v r h',
      names w d n /\ encodes o w v /\ rd_rel xlen op (sgn 32 v mod 2 ^ xlen) (hpc h) r /\
      out = Done h' /\ writes_x h h' n r /\ keeps_f h h' /\ keeps_m h h' /\ hpc h' = next
  | IJal d off => exists n o,
      names w d n /\ value off o /\
      transfers xlen size h (Some n) (jump_spec has_c ((hpc h + o) mod 2 ^ xlen) next (hpc h)) out
  | IJalr d base off => exists n b o,
      names w d n /\ value base b /\ value off o /\
      transfers xlen size h (Some n) (jump_spec has_c (even_part ((b + o) mod 2 ^ xlen)) next (hpc h)) out
  | IBranch c a b off => exists va vb o,
      value a va /\ value b vb /\ value off o /\
      let t := (hpc h + o) mod 2 ^ xlen in
      transfers xlen size h None
        (if taken xlen c va vb
         then if misaligned has_c t
              then {| c_pc := None; c_link := None;
                      c_trap := Some {| t_tval := t; t_code := cause_misaligned_fetch; t_epc := hpc h |} |}
              else {| c_pc := Some t; c_link := None; c_trap := None |}
         else fall_through) out
  | ILoad k d base off => exists n b o,
      names w d n /\ value base b /\ value off o /\
      let a := (b + o) mod 2 ^ xlen in
      if limit <? a then raises h (load_fault a (hpc h)) out
      else exists r h', loaded xlen k (hm h) a r /\
        out = Done h' /\ writes_x h h' n r /\ keeps_f h h' /\ keeps_m h h' /\ hpc h' = next
  | IStore k base off v => exists b o x,
      value base b /\ value off o /\ value v x /\
      let a := (b + o) mod 2 ^ xlen in
      if limit <? a then raises h (store_fault a (hpc h)) out
      else exists h', out = Done h' /\ keeps_x h h' /\ keeps_f h h' /\ hpc h' = next /\
        (forall y, touches a (store_bytes k) y -> hm h' y = x / 2 ^ (8 * (y - a)) mod 256) /\
        (forall y, ~ touches a (store_bytes k) y -> hm h' y = hm h y)
  | IFload dbl fd base off => exists n b o,
      encodes fd w n /\ value base b /\ value off o /\
      let a := (b + o) mod 2 ^ xlen in
      if hfs h =? 0 then raises h (illegal (hpc h)) out
      else if limit <? a then raises h (load_fault a (hpc h)) out
      else exists r h',
        (if dbl then loaded 64 Ld (hm h) a r else exists v, loaded 32 Lw (hm h) a v /\ boxed v r) /\
        out = Done h' /\ writes_f h h' n r /\ keeps_x h h' /\ keeps_m h h' /\ hpc h' = next
  | IFstore dbl base off fs => exists b o n,
      value base b /\ value off o /\ encodes fs w n /\
      let a := (b + o) mod 2 ^ xlen in
      let bytes := if dbl then 8%nat else 4%nat in
      if hfs h =? 0 then raises h (illegal (hpc h)) out
      else if limit <? a then raises h (store_fault a (hpc h)) out
      else exists h', out = Done h' /\ keeps_x h h' /\ keeps_f h h' /\ hpc h' = next /\
        (forall y, touches a bytes y -> hm h' y = hf h n / 2 ^ (8 * (y - a)) mod 256) /\
        (forall y, ~ touches a bytes y -> hm h' y = hm h y)
  | INop => exists h', out = Done h' /\ keeps_x h h' /\ keeps_f h h' /\ keeps_m h h' /\ hpc h' = next
  end.

(** ** The instruction set: what each mnemonic does *)
Definition rd := Rd o_rd.
Definition rs1 := Reg o_rs1.
Definition rs2 := Reg o_rs2.
Definition none := ImmN 0.
Definition r_op (m : string) (op : iop) := (m, IOp op rd rs1 rs2).
Definition i_op (m : string) (op : iop) := (m, IOp op rd rs1 (Imm o_imm_i)).
Definition sh5_op (m : string) (op : iop) := (m, IOp op rd rs1 (Imm o_shamt5)).
Definition sh6_op (m : string) (op : iop) := (m, IOp op rd rs1 (Imm o_shamt6)).
Definition un_op (m : string) (op : iop) := (m, IOp op rd rs1 none).
(** Compressed: rd/rs1, rs2, the three-bit registers. *)
Definition crd := Rd o_c_rs1.
Definition crs1 := Reg o_c_rs1.
Definition crs2 := Reg o_c_rs2.
Definition crs1' := Reg o_c_rs1p.
Definition crs2' := Reg o_c_rs2p.
Definition sp := RegN 2.
Definition zero := RegN 0.
Definition ca_op (m : string) (op : iop) := (m, IOp op (Rd o_c_rs1p) crs1' crs2').

Definition semantics_common : list (string * instr) :=
  [ ("lui", IUpper Lui rd o_imm_u); ("auipc", IUpper Auipc rd o_imm_u);
    ("jal", IJal rd (Imm o_imm_j)); ("jalr", IJalr rd rs1 (Imm o_imm_i));
    ("beq", IBranch Beq rs1 rs2 (Imm o_imm_b)); ("bne", IBranch Bne rs1 rs2 (Imm o_imm_b));
    ("blt", IBranch Blt rs1 rs2 (Imm o_imm_b)); ("bge", IBranch Bge rs1 rs2 (Imm o_imm_b));
    ("bltu", IBranch Bltu rs1 rs2 (Imm o_imm_b)); ("bgeu", IBranch Bgeu rs1 rs2 (Imm o_imm_b));
    ("lb", ILoad Lb rd rs1 (Imm o_imm_i)); ("lh", ILoad Lh rd rs1 (Imm o_imm_i));
    ("lw", ILoad Lw rd rs1 (Imm o_imm_i)); ("lbu", ILoad Lbu rd rs1 (Imm o_imm_i));
    ("lhu", ILoad Lhu rd rs1 (Imm o_imm_i));
    ("sb", IStore Sb rs1 (Imm o_imm_s) rs2); ("sh", IStore Sh rs1 (Imm o_imm_s) rs2);
    ("sw", IStore Sw rs1 (Imm o_imm_s) rs2);
    i_op "addi" Add; i_op "slti" Slt; i_op "sltiu" Sltu; i_op "xori" Xor; i_op "ori" Or; i_op "andi" And;
    r_op "add" Add; r_op "sub" Sub; r_op "sll" Sll; r_op "slt" Slt; r_op "sltu" Sltu; r_op "xor" Xor;
    r_op "srl" Srl; r_op "sra" Sra; r_op "or" Or; r_op "and" And;
    (* one hart, accesses in program order; every fetch sees the stores before it *)
    ("fence", INop); ("fence.tso", INop); ("fence.i", INop);
    (* M *)
    r_op "mul" Mul; r_op "mulh" Mulh; r_op "mulhsu" Mulhsu; r_op "mulhu" Mulhu; r_op "div" Div;
    r_op "divu" Divu; r_op "rem" Rem; r_op "remu" Remu;
    (* Zba, Zbb, Zbc, Zbs *)
    r_op "sh1add" (ShAdd 1); r_op "sh2add" (ShAdd 2); r_op "sh3add" (ShAdd 3);
    r_op "andn" Andn; r_op "orn" Orn; r_op "xnor" Xnor; un_op "clz" Clz; un_op "ctz" Ctz;
    un_op "cpop" Cpop; un_op "sext.b" SextB; un_op "sext.h" SextH; un_op "zext.h" ZextH;
    r_op "min" Min; r_op "minu" Minu; r_op "max" Max; r_op "maxu" Maxu; r_op "rol" Rol; r_op "ror" Ror;
    un_op "orc.b" Orcb; un_op "rev8" Rev8; r_op "clmul" Clmul; r_op "clmulr" Clmulr; r_op "clmulh" Clmulh;
    r_op "bclr" Bclr; r_op "bext" Bext; r_op "binv" Binv; r_op "bset" Bset;
    (* loads and stores of f registers *)
    ("flw", IFload false o_rd rs1 (Imm o_imm_i)); ("fsw", IFstore false rs1 (Imm o_imm_s) o_rs2);
    ("fld", IFload true o_rd rs1 (Imm o_imm_i)); ("fsd", IFstore true rs1 (Imm o_imm_s) o_rs2);
    (* C *)
    ("c.addi4spn", IOp Add (Rd o_c_rs2p) sp (Imm o_c_addi4spn));
    ("c.lw", ILoad Lw (Rd o_c_rs2p) crs1' (Imm o_c_lw)); ("c.sw", IStore Sw crs1' (Imm o_c_lw) crs2');
    ("c.nop", INop); ("c.addi", IOp Add crd crs1 (Imm o_ci_imm)); ("c.li", IOp Add crd zero (Imm o_ci_imm));
    ("c.addi16sp", IOp Add (RdN 2) sp (Imm o_c_addi16sp)); ("c.lui", IUpper Lui crd o_c_lui);
    ("c.srli", IOp Srl (Rd o_c_rs1p) crs1' (Imm o_cb_shamt));
    ("c.srai", IOp Sra (Rd o_c_rs1p) crs1' (Imm o_cb_shamt));
    ("c.andi", IOp And (Rd o_c_rs1p) crs1' (Imm o_ci_imm));
    ca_op "c.sub" Sub; ca_op "c.xor" Xor; ca_op "c.or" Or; ca_op "c.and" And;
    ("c.j", IJal (RdN 0) (Imm o_c_j));
    ("c.beqz", IBranch Beq crs1' zero (Imm o_c_b)); ("c.bnez", IBranch Bne crs1' zero (Imm o_c_b));
    ("c.slli", IOp Sll crd crs1 (Imm o_ci_shamt)); ("c.lwsp", ILoad Lw crd sp (Imm o_c_lwsp));
    ("c.jr", IJalr (RdN 0) crs1 none); ("c.jalr", IJalr (RdN 1) crs1 none);
    ("c.mv", IOp Add crd crs2 zero); ("c.add", IOp Add crd crs2 crs1);
    ("c.swsp", IStore Sw sp (Imm o_c_swsp) crs2);
    ("c.fld", IFload true o_c_rs2p crs1' (Imm o_c_ld)); ("c.fsd", IFstore true crs1' (Imm o_c_ld) o_c_rs2p);
    ("c.fldsp", IFload true o_c_rs1 sp (Imm o_c_ldsp)); ("c.fsdsp", IFstore true sp (Imm o_c_sdsp) o_c_rs2) ].

Definition semantics_32 : list (string * instr) :=
  [ sh5_op "slli" Sll; sh5_op "srli" Srl; sh5_op "srai" Sra; sh5_op "rori" Ror; sh5_op "bclri" Bclr;
    sh5_op "bexti" Bext; sh5_op "binvi" Binv; sh5_op "bseti" Bset;
    ("c.jal", IJal (RdN 1) (Imm o_c_j));
    ("c.flw", IFload false o_c_rs2p crs1' (Imm o_c_lw)); ("c.fsw", IFstore false crs1' (Imm o_c_lw) o_c_rs2p);
    ("c.flwsp", IFload false o_c_rs1 sp (Imm o_c_lwsp)); ("c.fswsp", IFstore false sp (Imm o_c_swsp) o_c_rs2) ].

Definition semantics_64 : list (string * instr) :=
  [ sh6_op "slli" Sll; sh6_op "srli" Srl; sh6_op "srai" Sra; sh6_op "rori" Ror; sh6_op "bclri" Bclr;
    sh6_op "bexti" Bext; sh6_op "binvi" Binv; sh6_op "bseti" Bset;
    ("ld", ILoad Ld rd rs1 (Imm o_imm_i)); ("lwu", ILoad Lwu rd rs1 (Imm o_imm_i));
    ("sd", IStore Sd rs1 (Imm o_imm_s) rs2);
    i_op "addiw" Addw; sh5_op "slliw" Sllw; sh5_op "srliw" Srlw; sh5_op "sraiw" Sraw;
    r_op "addw" Addw; r_op "subw" Subw; r_op "sllw" Sllw; r_op "srlw" Srlw; r_op "sraw" Sraw;
    r_op "mulw" Mulw; r_op "divw" Divw; r_op "divuw" Divuw; r_op "remw" Remw; r_op "remuw" Remuw;
    r_op "add.uw" AddUw; r_op "sh1add.uw" (ShAddUw 1); r_op "sh2add.uw" (ShAddUw 2);
    r_op "sh3add.uw" (ShAddUw 3); sh6_op "slli.uw" SlliUw; un_op "clzw" Clzw; un_op "ctzw" Ctzw;
    un_op "cpopw" Cpopw; r_op "rolw" Rolw; r_op "rorw" Rorw; sh5_op "roriw" Rorw;
    ("c.ld", ILoad Ld (Rd o_c_rs2p) crs1' (Imm o_c_ld)); ("c.sd", IStore Sd crs1' (Imm o_c_ld) crs2');
    ("c.ldsp", ILoad Ld crd sp (Imm o_c_ldsp)); ("c.sdsp", IStore Sd sp (Imm o_c_sdsp) crs2);
    ("c.addiw", IOp Addw crd crs1 (Imm o_ci_imm)); ca_op "c.subw" Subw; ca_op "c.addw" Addw ].

Definition semantics (xlen : Z) (m : string) : option instr :=
  option_map snd (find (fun p => String.eqb (fst p) m)
    (semantics_common ++ (if xlen =? 32 then semantics_32 else semantics_64))%list).

(** ** Known deviations *)
(** States and words on which the simulator is known not to do what the manual says of the mnemonic [m]:
    cpopw leaves the upper half of rd; RV32 clmulr loses the product with bit 31 of rs2; a branch to a misaligned
    address reports its own address; loads and stores of f registers disregard and do not set mstatus.FS; on RV32
    three compressed ones compute the address in 64 bits. *)
Definition deviates (xlen : Z) (has_c : bool) (m : string) (i : instr) (w : Z) (h : hart) : Prop :=
  let beyond base off := xlen = 32 /\ In m ["c.fld"; "c.fldsp"; "c.fsdsp"] /\
    exists b o, opd_value xlen w h base b /\ opd_value xlen w h off o /\ 2 ^ 32 <= b + o in
  match i with
  | IOp Cpopw _ _ _ => True
  | IOp Clmulr _ _ b => xlen = 32 /\ exists v, opd_value xlen w h b v /\ Z.testbit v 31 = true
  | IBranch c a b off => exists va vb o,
      opd_value xlen w h a va /\ opd_value xlen w h b vb /\ opd_value xlen w h off o /\
      taken xlen c va vb = true /\ misaligned has_c ((hpc h + o) mod 2 ^ xlen) = true
  | IFload _ _ base off => hfs h <> 3 \/ beyond base off
  | IFstore _ base off _ => hfs h = 0 \/ beyond base off
  | _ => False
  end.

(** ** Fetching: instruction words are 32 bits long if their two low bits are set, else 16. *)
Definition long (iw : Z) : bool := iw mod 4 =? 3.
Definition word_of (iw : Z) : Z := if long iw then iw else iw mod 2 ^ 16.
Definition size_of (iw : Z) : Z := if long iw then 4 else 2.

(** ** Execution from memory *)
(** The four bytes at pc. *)
Definition fetched (h : hart) (iw : Z) : Prop :=
  0 <= iw < 2 ^ 32 /\ forall k, 0 <= k < 4 -> iw / 2 ^ (8 * k) mod 256 = hm h (hpc h + k).
Definition fetch_fault (pc : Z) : trap_req := {| t_tval := pc; t_code := 1; t_epc := pc |}.
Section Run.
  (** Register width, C extension present, highest accessible address, the 32-bit and 16-bit instructions. *)
  Variables (xlen : Z) (has_c : bool) (limit : Z) (man32 man16 : list entry).
  (** One instruction executed from memory. *)
  Inductive steps_to (h : hart) (out : outcome) : Prop :=
    | st_fault : limit < hpc h -> raises h (fetch_fault (hpc h)) out -> steps_to h out
    | st_instr iw e i : hpc h <= limit -> fetched h iw ->
        In e (if long iw then man32 else man16) -> means e (word_of iw) -> semantics xlen (mnemonic e) = Some i ->
        executes xlen has_c limit (size_of iw) i (word_of iw) h out -> steps_to h out
    | st_illegal iw : hpc h <= limit -> fetched h iw ->
        (forall e, In e (if long iw then man32 else man16) -> ~ means e (word_of iw)) ->
        raises h (illegal (hpc h)) out -> steps_to h out.
  (** [n] instructions, or fewer up to an exception. *)
  Inductive runs : nat -> hart -> outcome -> Prop :=
    | runs_end h : runs 0 h (Done h)
    | runs_trap n h t h' : steps_to h (Raise t h') -> runs (S n) h (Raise t h')
    | runs_step n h h1 out : steps_to h (Done h1) -> runs n h1 out -> runs (S n) h out.
End Run.

(** ** The part of the behaviour the simulator is proved to follow *)
Section Covered.
  (** [D32], [D16]: the decoders' manuals with the words they are known to reject or accept wrongly; [broken]:
      instructions that always go wrong. *)
  Variables (xlen : Z) (has_c : bool) (limit : Z) (D32 D16 : decoder_spec) (broken : list string).
  Definition spec_of (iw : Z) : decoder_spec := if long iw then D32 else D16.
  (** In state [h] the word [iw] is the instruction [i], with mnemonic [m], and nothing known to go wrong applies. *)
  Definition regular (h : hart) (iw : Z) (m : string) (i : instr) : Prop :=
    (exists e, In e (ds_manual (spec_of iw)) /\ means e (word_of iw) /\ mnemonic e = m) /\
    semantics xlen m = Some i /\
    ~ listed (ds_missing (spec_of iw)) m (word_of iw) /\ ~ In m broken /\ ~ deviates xlen has_c m i (word_of iw) h.
  (** The word is no instruction at all. *)
  Definition unknown (iw : Z) : Prop :=
    (forall e, In e (ds_manual (spec_of iw)) -> ~ means e (word_of iw)) /\
    forall o, ~ listed (ds_extra (spec_of iw)) o (word_of iw).
  Definition covered_state (h : hart) : Prop :=
    (has_c = true \/ hpc h mod 4 = 0) /\
    (hpc h <= limit -> forall iw, fetched h iw ->
       (exists m i, regular h iw m i) /\ hpc h + size_of iw < 2 ^ xlen \/ unknown iw).
  (** Along a run of [n] instructions from [h]; moreover an instruction executed again has not been overwritten. *)
  Let run := runs xlen has_c limit (ds_manual D32) (ds_manual D16).
  Definition covered_run (n : nat) (h : hart) : Prop :=
    (forall j h', (j < n)%nat -> run j h (Done h') -> covered_state h') /\
    (forall j k h1 h2, (j + k < n)%nat -> run j h (Done h1) -> run k h1 (Done h2) -> hpc h2 = hpc h1 ->
       forall iw, fetched h1 iw -> fetched h2 iw).
End Covered.

(** Two outcomes that cannot be told apart. *)
Definition same_hart (h h' : hart) : Prop := unchanged h h'.
Definition same_outcome (o o' : outcome) : Prop :=
  match o, o' with
  | Done h, Done h' => same_hart h h'
  | Raise t h, Raise t' h' => t = t' /\ same_hart h h'
  | _, _ => False
  end.
