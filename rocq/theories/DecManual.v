(** The encodings of the RISC-V manuals, extension by extension, written from the manuals' instruction
    listings: fixed bits, reserved operand values, and beside each mnemonic the names of the simulator
    opcodes that stand for it (several where the simulator gives special cases, such as hints, an opcode
    of their own).  Then, for each of the simulator's decoders, the extensions it claims and the encodings
    on which it is known to differ from the manuals. *)
From Coq Require Import ZArith List String.
From Verif Require Import DecSpec.
Import ListNotations.
Local Open Scope string_scope.
Local Open Scope Z_scope.

(** RV32I. *)
Definition m_I32 : list entry := [
   ent "lui" ["lui"; "lui_hint"] [Is [(6, 0)] 0x37];
   ent "auipc" ["auipc"; "auipc_hint"] [Is [(6, 0)] 0x17];
   ent "jal" ["jal"; "j"] [Is [(6, 0)] 0x6f];
   ent "jalr" ["jalr"; "jr"] [Is [(14, 12)] 0; Is [(6, 0)] 0x67];
   ent "beq" ["beq"] [Is [(14, 12)] 0; Is [(6, 0)] 0x63];
   ent "bne" ["bne"] [Is [(14, 12)] 1; Is [(6, 0)] 0x63];
   ent "blt" ["blt"] [Is [(14, 12)] 4; Is [(6, 0)] 0x63];
   ent "bge" ["bge"] [Is [(14, 12)] 5; Is [(6, 0)] 0x63];
   ent "bltu" ["bltu"] [Is [(14, 12)] 6; Is [(6, 0)] 0x63];
   ent "bgeu" ["bgeu"] [Is [(14, 12)] 7; Is [(6, 0)] 0x63];
   ent "lb" ["lb"] [Is [(14, 12)] 0; Is [(6, 0)] 3];
   ent "lh" ["lh"] [Is [(14, 12)] 1; Is [(6, 0)] 3];
   ent "lw" ["lw"] [Is [(14, 12)] 2; Is [(6, 0)] 3];
   ent "lbu" ["lbu"] [Is [(14, 12)] 4; Is [(6, 0)] 3];
   ent "lhu" ["lhu"] [Is [(14, 12)] 5; Is [(6, 0)] 3];
   ent "sb" ["sb"] [Is [(14, 12)] 0; Is [(6, 0)] 0x23];
   ent "sh" ["sh"] [Is [(14, 12)] 1; Is [(6, 0)] 0x23];
   ent "sw" ["sw"] [Is [(14, 12)] 2; Is [(6, 0)] 0x23];
   ent "addi" ["addi"; "nop"; "addi_hint1"; "addi_hint2"] [Is [(14, 12)] 0; Is [(6, 0)] 0x13];
   ent "slti" ["slti"; "slti_hint"] [Is [(14, 12)] 2; Is [(6, 0)] 0x13];
   ent "sltiu" ["sltiu"; "sltiu_hint"] [Is [(14, 12)] 3; Is [(6, 0)] 0x13];
   ent "xori" ["xori"; "xori_hint"] [Is [(14, 12)] 4; Is [(6, 0)] 0x13];
   ent "ori" ["ori"; "ori_hint"; "prefetch_i"; "prefetch_r"; "prefetch_w"] [Is [(14, 12)] 6; Is [(6, 0)] 0x13];
   ent "andi" ["andi"; "andi_hint"] [Is [(14, 12)] 7; Is [(6, 0)] 0x13];
   ent "slli" ["slli"; "slli_semihost"; "slli_hint1"; "slli_hint2"] [Is [(31, 25)] 0; Is [(14, 12)] 1; Is [(6, 0)] 0x13];
   ent "srli" ["srli"; "srli_hint"] [Is [(31, 25)] 0; Is [(14, 12)] 5; Is [(6, 0)] 0x13];
   ent "srai" ["srai"; "srai_semihost"; "srai_hint1"; "srai_hint2"] [Is [(31, 25)] 0x20; Is [(14, 12)] 5; Is [(6, 0)] 0x13];
   ent "add" ["add"; "add_hint1"; "add_hint2"; "add_hint3"; "ntl_p1"; "ntl_pall"; "ntl_s1"; "ntl_all"] [Is [(31, 25)] 0; Is [(14, 12)] 0; Is [(6, 0)] 0x33];
   ent "sub" ["sub"; "sub_hint"] [Is [(31, 25)] 0x20; Is [(14, 12)] 0; Is [(6, 0)] 0x33];
   ent "sll" ["sll"; "sll_hint"] [Is [(31, 25)] 0; Is [(14, 12)] 1; Is [(6, 0)] 0x33];
   ent "slt" ["slt"; "slt_hint"] [Is [(31, 25)] 0; Is [(14, 12)] 2; Is [(6, 0)] 0x33];
   ent "sltu" ["sltu"; "sltu_hint"] [Is [(31, 25)] 0; Is [(14, 12)] 3; Is [(6, 0)] 0x33];
   ent "xor" ["xor"; "xor_hint"] [Is [(31, 25)] 0; Is [(14, 12)] 4; Is [(6, 0)] 0x33];
   ent "srl" ["srl"; "srl_hint"] [Is [(31, 25)] 0; Is [(14, 12)] 5; Is [(6, 0)] 0x33];
   ent "sra" ["sra"; "sra_hint"] [Is [(31, 25)] 0x20; Is [(14, 12)] 5; Is [(6, 0)] 0x33];
   ent "or" ["or"; "or_hint"] [Is [(31, 25)] 0; Is [(14, 12)] 6; Is [(6, 0)] 0x33];
   ent "and" ["and"; "and_hint"] [Is [(31, 25)] 0; Is [(14, 12)] 7; Is [(6, 0)] 0x33];
   ent "fence" ["fence"; "fence_hint1"; "fence_hint2"; "fence_hint3"; "fence_hint4"; "fence_hint5"; "fence_hint6"; "fence_hint7"; "pause"] [Isnt [(31, 20)] 0x833; Is [(14, 12)] 0; Is [(6, 0)] 0xf];
   ent "fence.tso" ["fence_tso"] [Is [(31, 20)] 0x833; Is [(14, 12)] 0; Is [(6, 0)] 0xf];
   ent "ecall" ["ecall"] [Is [(31, 7)] 0; Is [(6, 0)] 0x73];
   ent "ebreak" ["ebreak"] [Is [(31, 20)] 1; Is [(19, 7)] 0; Is [(6, 0)] 0x73]].

(** RV64I. *)
Definition m_I64 : list entry := [
   ent "lui" ["lui"; "lui_hint"] [Is [(6, 0)] 0x37];
   ent "auipc" ["auipc"; "auipc_hint"] [Is [(6, 0)] 0x17];
   ent "jal" ["jal"; "j"] [Is [(6, 0)] 0x6f];
   ent "jalr" ["jalr"; "jr"] [Is [(14, 12)] 0; Is [(6, 0)] 0x67];
   ent "beq" ["beq"] [Is [(14, 12)] 0; Is [(6, 0)] 0x63];
   ent "bne" ["bne"] [Is [(14, 12)] 1; Is [(6, 0)] 0x63];
   ent "blt" ["blt"] [Is [(14, 12)] 4; Is [(6, 0)] 0x63];
   ent "bge" ["bge"] [Is [(14, 12)] 5; Is [(6, 0)] 0x63];
   ent "bltu" ["bltu"] [Is [(14, 12)] 6; Is [(6, 0)] 0x63];
   ent "bgeu" ["bgeu"] [Is [(14, 12)] 7; Is [(6, 0)] 0x63];
   ent "lb" ["lb"] [Is [(14, 12)] 0; Is [(6, 0)] 3];
   ent "lh" ["lh"] [Is [(14, 12)] 1; Is [(6, 0)] 3];
   ent "lw" ["lw"] [Is [(14, 12)] 2; Is [(6, 0)] 3];
   ent "lbu" ["lbu"] [Is [(14, 12)] 4; Is [(6, 0)] 3];
   ent "lhu" ["lhu"] [Is [(14, 12)] 5; Is [(6, 0)] 3];
   ent "sb" ["sb"] [Is [(14, 12)] 0; Is [(6, 0)] 0x23];
   ent "sh" ["sh"] [Is [(14, 12)] 1; Is [(6, 0)] 0x23];
   ent "sw" ["sw"] [Is [(14, 12)] 2; Is [(6, 0)] 0x23];
   ent "addi" ["addi"; "nop"; "addi_hint1"; "addi_hint2"] [Is [(14, 12)] 0; Is [(6, 0)] 0x13];
   ent "slti" ["slti"; "slti_hint"] [Is [(14, 12)] 2; Is [(6, 0)] 0x13];
   ent "sltiu" ["sltiu"; "sltiu_hint"] [Is [(14, 12)] 3; Is [(6, 0)] 0x13];
   ent "xori" ["xori"; "xori_hint"] [Is [(14, 12)] 4; Is [(6, 0)] 0x13];
   ent "ori" ["ori"; "ori_hint"; "prefetch_i"; "prefetch_r"; "prefetch_w"] [Is [(14, 12)] 6; Is [(6, 0)] 0x13];
   ent "andi" ["andi"; "andi_hint"] [Is [(14, 12)] 7; Is [(6, 0)] 0x13];
   ent "slli" ["slli"; "slli_semihost"; "slli_hint1"; "slli_hint2"] [Is [(31, 26)] 0; Is [(14, 12)] 1; Is [(6, 0)] 0x13];
   ent "srli" ["srli"; "srli_hint"] [Is [(31, 26)] 0; Is [(14, 12)] 5; Is [(6, 0)] 0x13];
   ent "srai" ["srai"; "srai_semihost"; "srai_hint1"; "srai_hint2"] [Is [(31, 26)] 0x10; Is [(14, 12)] 5; Is [(6, 0)] 0x13];
   ent "add" ["add"; "add_hint1"; "add_hint2"; "add_hint3"; "ntl_p1"; "ntl_pall"; "ntl_s1"; "ntl_all"] [Is [(31, 25)] 0; Is [(14, 12)] 0; Is [(6, 0)] 0x33];
   ent "sub" ["sub"; "sub_hint"] [Is [(31, 25)] 0x20; Is [(14, 12)] 0; Is [(6, 0)] 0x33];
   ent "sll" ["sll"; "sll_hint"] [Is [(31, 25)] 0; Is [(14, 12)] 1; Is [(6, 0)] 0x33];
   ent "slt" ["slt"; "slt_hint"] [Is [(31, 25)] 0; Is [(14, 12)] 2; Is [(6, 0)] 0x33];
   ent "sltu" ["sltu"; "sltu_hint"] [Is [(31, 25)] 0; Is [(14, 12)] 3; Is [(6, 0)] 0x33];
   ent "xor" ["xor"; "xor_hint"] [Is [(31, 25)] 0; Is [(14, 12)] 4; Is [(6, 0)] 0x33];
   ent "srl" ["srl"; "srl_hint"] [Is [(31, 25)] 0; Is [(14, 12)] 5; Is [(6, 0)] 0x33];
   ent "sra" ["sra"; "sra_hint"] [Is [(31, 25)] 0x20; Is [(14, 12)] 5; Is [(6, 0)] 0x33];
   ent "or" ["or"; "or_hint"] [Is [(31, 25)] 0; Is [(14, 12)] 6; Is [(6, 0)] 0x33];
   ent "and" ["and"; "and_hint"] [Is [(31, 25)] 0; Is [(14, 12)] 7; Is [(6, 0)] 0x33];
   ent "fence" ["fence"; "fence_hint1"; "fence_hint2"; "fence_hint3"; "fence_hint4"; "fence_hint5"; "fence_hint6"; "fence_hint7"; "pause"] [Isnt [(31, 20)] 0x833; Is [(14, 12)] 0; Is [(6, 0)] 0xf];
   ent "fence.tso" ["fence_tso"] [Is [(31, 20)] 0x833; Is [(14, 12)] 0; Is [(6, 0)] 0xf];
   ent "ecall" ["ecall"] [Is [(31, 7)] 0; Is [(6, 0)] 0x73];
   ent "ebreak" ["ebreak"] [Is [(31, 20)] 1; Is [(19, 7)] 0; Is [(6, 0)] 0x73];
   ent "ld" ["ld"] [Is [(14, 12)] 3; Is [(6, 0)] 3];
   ent "lwu" ["lwu"] [Is [(14, 12)] 6; Is [(6, 0)] 3];
   ent "sd" ["sd"] [Is [(14, 12)] 3; Is [(6, 0)] 0x23];
   ent "addiw" ["addiw"] [Is [(14, 12)] 0; Is [(6, 0)] 0x1b];
   ent "slliw" ["slliw"] [Is [(31, 25)] 0; Is [(14, 12)] 1; Is [(6, 0)] 0x1b];
   ent "srliw" ["srliw"] [Is [(31, 25)] 0; Is [(14, 12)] 5; Is [(6, 0)] 0x1b];
   ent "sraiw" ["sraiw"] [Is [(31, 25)] 0x20; Is [(14, 12)] 5; Is [(6, 0)] 0x1b];
   ent "addw" ["addw"] [Is [(31, 25)] 0; Is [(14, 12)] 0; Is [(6, 0)] 0x3b];
   ent "subw" ["subw"] [Is [(31, 25)] 0x20; Is [(14, 12)] 0; Is [(6, 0)] 0x3b];
   ent "sllw" ["sllw"] [Is [(31, 25)] 0; Is [(14, 12)] 1; Is [(6, 0)] 0x3b];
   ent "srlw" ["srlw"] [Is [(31, 25)] 0; Is [(14, 12)] 5; Is [(6, 0)] 0x3b];
   ent "sraw" ["sraw"] [Is [(31, 25)] 0x20; Is [(14, 12)] 5; Is [(6, 0)] 0x3b]].

(** Zifencei. *)
Definition m_Zifencei : list entry := [
   ent "fence.i" ["fencei"] [Is [(14, 12)] 1; Is [(6, 0)] 0xf]].

(** Zicsr. *)
Definition m_Zicsr : list entry := [
   ent "csrrw" ["csrrw"; "csrrw_nr"; "unimp"] [Is [(14, 12)] 1; Is [(6, 0)] 0x73];
   ent "csrrs" ["csrrs"; "csrrs_nr"; "csrrs_nw"] [Is [(14, 12)] 2; Is [(6, 0)] 0x73];
   ent "csrrc" ["csrrc"; "csrrc_nr"; "csrrc_nw"] [Is [(14, 12)] 3; Is [(6, 0)] 0x73];
   ent "csrrwi" ["csrrwi"; "csrrwi_nr"] [Is [(14, 12)] 5; Is [(6, 0)] 0x73];
   ent "csrrsi" ["csrrsi"; "csrrsi_nr"; "csrrsi_nw"] [Is [(14, 12)] 6; Is [(6, 0)] 0x73];
   ent "csrrci" ["csrrci"; "csrrci_nr"; "csrrci_nw"] [Is [(14, 12)] 7; Is [(6, 0)] 0x73]].

(** M, RV32. *)
Definition m_M32 : list entry := [
   ent "mul" ["mul"] [Is [(31, 25)] 1; Is [(14, 12)] 0; Is [(6, 0)] 0x33];
   ent "mulh" ["mulh"] [Is [(31, 25)] 1; Is [(14, 12)] 1; Is [(6, 0)] 0x33];
   ent "mulhsu" ["mulhsu"] [Is [(31, 25)] 1; Is [(14, 12)] 2; Is [(6, 0)] 0x33];
   ent "mulhu" ["mulhu"] [Is [(31, 25)] 1; Is [(14, 12)] 3; Is [(6, 0)] 0x33];
   ent "div" ["div"] [Is [(31, 25)] 1; Is [(14, 12)] 4; Is [(6, 0)] 0x33];
   ent "divu" ["divu"] [Is [(31, 25)] 1; Is [(14, 12)] 5; Is [(6, 0)] 0x33];
   ent "rem" ["rem"] [Is [(31, 25)] 1; Is [(14, 12)] 6; Is [(6, 0)] 0x33];
   ent "remu" ["remu"] [Is [(31, 25)] 1; Is [(14, 12)] 7; Is [(6, 0)] 0x33]].

(** M, RV64. *)
Definition m_M64 : list entry := [
   ent "mul" ["mul"] [Is [(31, 25)] 1; Is [(14, 12)] 0; Is [(6, 0)] 0x33];
   ent "mulh" ["mulh"] [Is [(31, 25)] 1; Is [(14, 12)] 1; Is [(6, 0)] 0x33];
   ent "mulhsu" ["mulhsu"] [Is [(31, 25)] 1; Is [(14, 12)] 2; Is [(6, 0)] 0x33];
   ent "mulhu" ["mulhu"] [Is [(31, 25)] 1; Is [(14, 12)] 3; Is [(6, 0)] 0x33];
   ent "div" ["div"] [Is [(31, 25)] 1; Is [(14, 12)] 4; Is [(6, 0)] 0x33];
   ent "divu" ["divu"] [Is [(31, 25)] 1; Is [(14, 12)] 5; Is [(6, 0)] 0x33];
   ent "rem" ["rem"] [Is [(31, 25)] 1; Is [(14, 12)] 6; Is [(6, 0)] 0x33];
   ent "remu" ["remu"] [Is [(31, 25)] 1; Is [(14, 12)] 7; Is [(6, 0)] 0x33];
   ent "mulw" ["mulw"] [Is [(31, 25)] 1; Is [(14, 12)] 0; Is [(6, 0)] 0x3b];
   ent "divw" ["divw"] [Is [(31, 25)] 1; Is [(14, 12)] 4; Is [(6, 0)] 0x3b];
   ent "divuw" ["divuw"] [Is [(31, 25)] 1; Is [(14, 12)] 5; Is [(6, 0)] 0x3b];
   ent "remw" ["remw"] [Is [(31, 25)] 1; Is [(14, 12)] 6; Is [(6, 0)] 0x3b];
   ent "remuw" ["remuw"] [Is [(31, 25)] 1; Is [(14, 12)] 7; Is [(6, 0)] 0x3b]].

(** A, RV32. *)
Definition m_A32 : list entry := [
   ent "lr.w" ["lrw"] [Is [(31, 27)] 2; Is [(24, 20)] 0; Is [(14, 12)] 2; Is [(6, 0)] 0x2f];
   ent "sc.w" ["scw"] [Is [(31, 27)] 3; Is [(14, 12)] 2; Is [(6, 0)] 0x2f];
   ent "amoadd.w" ["amoaddw"] [Is [(31, 27)] 0; Is [(14, 12)] 2; Is [(6, 0)] 0x2f];
   ent "amoswap.w" ["amoswapw"] [Is [(31, 27)] 1; Is [(14, 12)] 2; Is [(6, 0)] 0x2f];
   ent "amoxor.w" ["amoxorw"] [Is [(31, 27)] 4; Is [(14, 12)] 2; Is [(6, 0)] 0x2f];
   ent "amoor.w" ["amoorw"] [Is [(31, 27)] 8; Is [(14, 12)] 2; Is [(6, 0)] 0x2f];
   ent "amoand.w" ["amoandw"] [Is [(31, 27)] 0xc; Is [(14, 12)] 2; Is [(6, 0)] 0x2f];
   ent "amomin.w" ["amominw"] [Is [(31, 27)] 0x10; Is [(14, 12)] 2; Is [(6, 0)] 0x2f];
   ent "amomax.w" ["amomaxw"] [Is [(31, 27)] 0x14; Is [(14, 12)] 2; Is [(6, 0)] 0x2f];
   ent "amominu.w" ["amominuw"] [Is [(31, 27)] 0x18; Is [(14, 12)] 2; Is [(6, 0)] 0x2f];
   ent "amomaxu.w" ["amomaxuw"] [Is [(31, 27)] 0x1c; Is [(14, 12)] 2; Is [(6, 0)] 0x2f]].

(** A, RV64. *)
Definition m_A64 : list entry := [
   ent "lr.w" ["lrw"] [Is [(31, 27)] 2; Is [(24, 20)] 0; Is [(14, 12)] 2; Is [(6, 0)] 0x2f];
   ent "sc.w" ["scw"] [Is [(31, 27)] 3; Is [(14, 12)] 2; Is [(6, 0)] 0x2f];
   ent "amoadd.w" ["amoaddw"] [Is [(31, 27)] 0; Is [(14, 12)] 2; Is [(6, 0)] 0x2f];
   ent "amoswap.w" ["amoswapw"] [Is [(31, 27)] 1; Is [(14, 12)] 2; Is [(6, 0)] 0x2f];
   ent "amoxor.w" ["amoxorw"] [Is [(31, 27)] 4; Is [(14, 12)] 2; Is [(6, 0)] 0x2f];
   ent "amoor.w" ["amoorw"] [Is [(31, 27)] 8; Is [(14, 12)] 2; Is [(6, 0)] 0x2f];
   ent "amoand.w" ["amoandw"] [Is [(31, 27)] 0xc; Is [(14, 12)] 2; Is [(6, 0)] 0x2f];
   ent "amomin.w" ["amominw"] [Is [(31, 27)] 0x10; Is [(14, 12)] 2; Is [(6, 0)] 0x2f];
   ent "amomax.w" ["amomaxw"] [Is [(31, 27)] 0x14; Is [(14, 12)] 2; Is [(6, 0)] 0x2f];
   ent "amominu.w" ["amominuw"] [Is [(31, 27)] 0x18; Is [(14, 12)] 2; Is [(6, 0)] 0x2f];
   ent "amomaxu.w" ["amomaxuw"] [Is [(31, 27)] 0x1c; Is [(14, 12)] 2; Is [(6, 0)] 0x2f];
   ent "lr.d" ["lrd"] [Is [(31, 27)] 2; Is [(24, 20)] 0; Is [(14, 12)] 3; Is [(6, 0)] 0x2f];
   ent "sc.d" ["scd"] [Is [(31, 27)] 3; Is [(14, 12)] 3; Is [(6, 0)] 0x2f];
   ent "amoadd.d" ["amoaddd"] [Is [(31, 27)] 0; Is [(14, 12)] 3; Is [(6, 0)] 0x2f];
   ent "amoswap.d" ["amoswapd"] [Is [(31, 27)] 1; Is [(14, 12)] 3; Is [(6, 0)] 0x2f];
   ent "amoxor.d" ["amoxord"] [Is [(31, 27)] 4; Is [(14, 12)] 3; Is [(6, 0)] 0x2f];
   ent "amoor.d" ["amoord"] [Is [(31, 27)] 8; Is [(14, 12)] 3; Is [(6, 0)] 0x2f];
   ent "amoand.d" ["amoandd"] [Is [(31, 27)] 0xc; Is [(14, 12)] 3; Is [(6, 0)] 0x2f];
   ent "amomin.d" ["amomind"] [Is [(31, 27)] 0x10; Is [(14, 12)] 3; Is [(6, 0)] 0x2f];
   ent "amomax.d" ["amomaxd"] [Is [(31, 27)] 0x14; Is [(14, 12)] 3; Is [(6, 0)] 0x2f];
   ent "amominu.d" ["amominud"] [Is [(31, 27)] 0x18; Is [(14, 12)] 3; Is [(6, 0)] 0x2f];
   ent "amomaxu.d" ["amomaxud"] [Is [(31, 27)] 0x1c; Is [(14, 12)] 3; Is [(6, 0)] 0x2f]].

(** F, RV32. *)
Definition m_F32 : list entry := [
   ent "flw" ["flw"] [Is [(14, 12)] 2; Is [(6, 0)] 7];
   ent "fsw" ["fsw"] [Is [(14, 12)] 2; Is [(6, 0)] 0x27];
   ent "fmadd.s" ["fmadd_s"] [Is [(26, 25)] 0; Is [(6, 0)] 0x43];
   ent "fmsub.s" ["fmsub_s"] [Is [(26, 25)] 0; Is [(6, 0)] 0x47];
   ent "fnmsub.s" ["fnmsub_s"] [Is [(26, 25)] 0; Is [(6, 0)] 0x4b];
   ent "fnmadd.s" ["fnmadd_s"] [Is [(26, 25)] 0; Is [(6, 0)] 0x4f];
   ent "fadd.s" ["fadd_s"] [Is [(31, 27)] 0; Is [(26, 25)] 0; Is [(6, 0)] 0x53];
   ent "fsub.s" ["fsub_s"] [Is [(31, 27)] 1; Is [(26, 25)] 0; Is [(6, 0)] 0x53];
   ent "fmul.s" ["fmul_s"] [Is [(31, 27)] 2; Is [(26, 25)] 0; Is [(6, 0)] 0x53];
   ent "fdiv.s" ["fdiv_s"] [Is [(31, 27)] 3; Is [(26, 25)] 0; Is [(6, 0)] 0x53];
   ent "fsqrt.s" ["fsqrt_s"] [Is [(31, 27)] 0xb; Is [(26, 25)] 0; Is [(24, 20)] 0; Is [(6, 0)] 0x53];
   ent "fsgnj.s" ["fsgnj_s"] [Is [(31, 27)] 4; Is [(26, 25)] 0; Is [(14, 12)] 0; Is [(6, 0)] 0x53];
   ent "fsgnjn.s" ["fsgnjn_s"] [Is [(31, 27)] 4; Is [(26, 25)] 0; Is [(14, 12)] 1; Is [(6, 0)] 0x53];
   ent "fsgnjx.s" ["fsgnjx_s"] [Is [(31, 27)] 4; Is [(26, 25)] 0; Is [(14, 12)] 2; Is [(6, 0)] 0x53];
   ent "fmin.s" ["fmin_s"] [Is [(31, 27)] 5; Is [(26, 25)] 0; Is [(14, 12)] 0; Is [(6, 0)] 0x53];
   ent "fmax.s" ["fmax_s"] [Is [(31, 27)] 5; Is [(26, 25)] 0; Is [(14, 12)] 1; Is [(6, 0)] 0x53];
   ent "feq.s" ["fcmpeq_s"] [Is [(31, 27)] 0x14; Is [(26, 25)] 0; Is [(14, 12)] 2; Is [(6, 0)] 0x53];
   ent "flt.s" ["fcmplt_s"] [Is [(31, 27)] 0x14; Is [(26, 25)] 0; Is [(14, 12)] 1; Is [(6, 0)] 0x53];
   ent "fle.s" ["fcmple_s"] [Is [(31, 27)] 0x14; Is [(26, 25)] 0; Is [(14, 12)] 0; Is [(6, 0)] 0x53];
   ent "fclass.s" ["fclass_s"] [Is [(31, 27)] 0x1c; Is [(26, 25)] 0; Is [(24, 20)] 0; Is [(14, 12)] 1; Is [(6, 0)] 0x53];
   ent "fcvt.w.s" ["fcvt_ws"] [Is [(31, 27)] 0x18; Is [(26, 25)] 0; Is [(24, 20)] 0; Is [(6, 0)] 0x53];
   ent "fcvt.s.w" ["fcvt_sw"] [Is [(31, 27)] 0x1a; Is [(26, 25)] 0; Is [(24, 20)] 0; Is [(6, 0)] 0x53];
   ent "fcvt.wu.s" ["fcvt_wus"] [Is [(31, 27)] 0x18; Is [(26, 25)] 0; Is [(24, 20)] 1; Is [(6, 0)] 0x53];
   ent "fcvt.s.wu" ["fcvt_swu"] [Is [(31, 27)] 0x1a; Is [(26, 25)] 0; Is [(24, 20)] 1; Is [(6, 0)] 0x53];
   ent "fmv.x.w" ["fmv_xw"] [Is [(31, 27)] 0x1c; Is [(26, 25)] 0; Is [(24, 20)] 0; Is [(14, 12)] 0; Is [(6, 0)] 0x53];
   ent "fmv.w.x" ["fmv_wx"] [Is [(31, 27)] 0x1e; Is [(26, 25)] 0; Is [(24, 20)] 0; Is [(14, 12)] 0; Is [(6, 0)] 0x53]].

(** F, RV64. *)
Definition m_F64 : list entry := [
   ent "flw" ["flw"] [Is [(14, 12)] 2; Is [(6, 0)] 7];
   ent "fsw" ["fsw"] [Is [(14, 12)] 2; Is [(6, 0)] 0x27];
   ent "fmadd.s" ["fmadd_s"] [Is [(26, 25)] 0; Is [(6, 0)] 0x43];
   ent "fmsub.s" ["fmsub_s"] [Is [(26, 25)] 0; Is [(6, 0)] 0x47];
   ent "fnmsub.s" ["fnmsub_s"] [Is [(26, 25)] 0; Is [(6, 0)] 0x4b];
   ent "fnmadd.s" ["fnmadd_s"] [Is [(26, 25)] 0; Is [(6, 0)] 0x4f];
   ent "fadd.s" ["fadd_s"] [Is [(31, 27)] 0; Is [(26, 25)] 0; Is [(6, 0)] 0x53];
   ent "fsub.s" ["fsub_s"] [Is [(31, 27)] 1; Is [(26, 25)] 0; Is [(6, 0)] 0x53];
   ent "fmul.s" ["fmul_s"] [Is [(31, 27)] 2; Is [(26, 25)] 0; Is [(6, 0)] 0x53];
   ent "fdiv.s" ["fdiv_s"] [Is [(31, 27)] 3; Is [(26, 25)] 0; Is [(6, 0)] 0x53];
   ent "fsqrt.s" ["fsqrt_s"] [Is [(31, 27)] 0xb; Is [(26, 25)] 0; Is [(24, 20)] 0; Is [(6, 0)] 0x53];
   ent "fsgnj.s" ["fsgnj_s"] [Is [(31, 27)] 4; Is [(26, 25)] 0; Is [(14, 12)] 0; Is [(6, 0)] 0x53];
   ent "fsgnjn.s" ["fsgnjn_s"] [Is [(31, 27)] 4; Is [(26, 25)] 0; Is [(14, 12)] 1; Is [(6, 0)] 0x53];
   ent "fsgnjx.s" ["fsgnjx_s"] [Is [(31, 27)] 4; Is [(26, 25)] 0; Is [(14, 12)] 2; Is [(6, 0)] 0x53];
   ent "fmin.s" ["fmin_s"] [Is [(31, 27)] 5; Is [(26, 25)] 0; Is [(14, 12)] 0; Is [(6, 0)] 0x53];
   ent "fmax.s" ["fmax_s"] [Is [(31, 27)] 5; Is [(26, 25)] 0; Is [(14, 12)] 1; Is [(6, 0)] 0x53];
   ent "feq.s" ["fcmpeq_s"] [Is [(31, 27)] 0x14; Is [(26, 25)] 0; Is [(14, 12)] 2; Is [(6, 0)] 0x53];
   ent "flt.s" ["fcmplt_s"] [Is [(31, 27)] 0x14; Is [(26, 25)] 0; Is [(14, 12)] 1; Is [(6, 0)] 0x53];
   ent "fle.s" ["fcmple_s"] [Is [(31, 27)] 0x14; Is [(26, 25)] 0; Is [(14, 12)] 0; Is [(6, 0)] 0x53];
   ent "fclass.s" ["fclass_s"] [Is [(31, 27)] 0x1c; Is [(26, 25)] 0; Is [(24, 20)] 0; Is [(14, 12)] 1; Is [(6, 0)] 0x53];
   ent "fcvt.w.s" ["fcvt_ws"] [Is [(31, 27)] 0x18; Is [(26, 25)] 0; Is [(24, 20)] 0; Is [(6, 0)] 0x53];
   ent "fcvt.s.w" ["fcvt_sw"] [Is [(31, 27)] 0x1a; Is [(26, 25)] 0; Is [(24, 20)] 0; Is [(6, 0)] 0x53];
   ent "fcvt.wu.s" ["fcvt_wus"] [Is [(31, 27)] 0x18; Is [(26, 25)] 0; Is [(24, 20)] 1; Is [(6, 0)] 0x53];
   ent "fcvt.s.wu" ["fcvt_swu"] [Is [(31, 27)] 0x1a; Is [(26, 25)] 0; Is [(24, 20)] 1; Is [(6, 0)] 0x53];
   ent "fmv.x.w" ["fmv_xw"] [Is [(31, 27)] 0x1c; Is [(26, 25)] 0; Is [(24, 20)] 0; Is [(14, 12)] 0; Is [(6, 0)] 0x53];
   ent "fmv.w.x" ["fmv_wx"] [Is [(31, 27)] 0x1e; Is [(26, 25)] 0; Is [(24, 20)] 0; Is [(14, 12)] 0; Is [(6, 0)] 0x53];
   ent "fcvt.l.s" ["fcvt_ls"] [Is [(31, 27)] 0x18; Is [(26, 25)] 0; Is [(24, 20)] 2; Is [(6, 0)] 0x53];
   ent "fcvt.s.l" ["fcvt_sl"] [Is [(31, 27)] 0x1a; Is [(26, 25)] 0; Is [(24, 20)] 2; Is [(6, 0)] 0x53];
   ent "fcvt.lu.s" ["fcvt_lus"] [Is [(31, 27)] 0x18; Is [(26, 25)] 0; Is [(24, 20)] 3; Is [(6, 0)] 0x53];
   ent "fcvt.s.lu" ["fcvt_slu"] [Is [(31, 27)] 0x1a; Is [(26, 25)] 0; Is [(24, 20)] 3; Is [(6, 0)] 0x53]].

(** D, RV32. *)
Definition m_D32 : list entry := [
   ent "fld" ["fld"] [Is [(14, 12)] 3; Is [(6, 0)] 7];
   ent "fsd" ["fsd"] [Is [(14, 12)] 3; Is [(6, 0)] 0x27];
   ent "fmadd.d" ["fmadd_d"] [Is [(26, 25)] 1; Is [(6, 0)] 0x43];
   ent "fmsub.d" ["fmsub_d"] [Is [(26, 25)] 1; Is [(6, 0)] 0x47];
   ent "fnmsub.d" ["fnmsub_d"] [Is [(26, 25)] 1; Is [(6, 0)] 0x4b];
   ent "fnmadd.d" ["fnmadd_d"] [Is [(26, 25)] 1; Is [(6, 0)] 0x4f];
   ent "fadd.d" ["fadd_d"] [Is [(31, 27)] 0; Is [(26, 25)] 1; Is [(6, 0)] 0x53];
   ent "fsub.d" ["fsub_d"] [Is [(31, 27)] 1; Is [(26, 25)] 1; Is [(6, 0)] 0x53];
   ent "fmul.d" ["fmul_d"] [Is [(31, 27)] 2; Is [(26, 25)] 1; Is [(6, 0)] 0x53];
   ent "fdiv.d" ["fdiv_d"] [Is [(31, 27)] 3; Is [(26, 25)] 1; Is [(6, 0)] 0x53];
   ent "fsqrt.d" ["fsqrt_d"] [Is [(31, 27)] 0xb; Is [(26, 25)] 1; Is [(24, 20)] 0; Is [(6, 0)] 0x53];
   ent "fsgnj.d" ["fsgnj_d"] [Is [(31, 27)] 4; Is [(26, 25)] 1; Is [(14, 12)] 0; Is [(6, 0)] 0x53];
   ent "fsgnjn.d" ["fsgnjn_d"] [Is [(31, 27)] 4; Is [(26, 25)] 1; Is [(14, 12)] 1; Is [(6, 0)] 0x53];
   ent "fsgnjx.d" ["fsgnjx_d"] [Is [(31, 27)] 4; Is [(26, 25)] 1; Is [(14, 12)] 2; Is [(6, 0)] 0x53];
   ent "fmin.d" ["fmin_d"] [Is [(31, 27)] 5; Is [(26, 25)] 1; Is [(14, 12)] 0; Is [(6, 0)] 0x53];
   ent "fmax.d" ["fmax_d"] [Is [(31, 27)] 5; Is [(26, 25)] 1; Is [(14, 12)] 1; Is [(6, 0)] 0x53];
   ent "feq.d" ["fcmpeq_d"] [Is [(31, 27)] 0x14; Is [(26, 25)] 1; Is [(14, 12)] 2; Is [(6, 0)] 0x53];
   ent "flt.d" ["fcmplt_d"] [Is [(31, 27)] 0x14; Is [(26, 25)] 1; Is [(14, 12)] 1; Is [(6, 0)] 0x53];
   ent "fle.d" ["fcmple_d"] [Is [(31, 27)] 0x14; Is [(26, 25)] 1; Is [(14, 12)] 0; Is [(6, 0)] 0x53];
   ent "fclass.d" ["fclass_d"] [Is [(31, 27)] 0x1c; Is [(26, 25)] 1; Is [(24, 20)] 0; Is [(14, 12)] 1; Is [(6, 0)] 0x53];
   ent "fcvt.w.d" ["fcvt_wd"] [Is [(31, 27)] 0x18; Is [(26, 25)] 1; Is [(24, 20)] 0; Is [(6, 0)] 0x53];
   ent "fcvt.d.w" ["fcvt_dw"] [Is [(31, 27)] 0x1a; Is [(26, 25)] 1; Is [(24, 20)] 0; Is [(6, 0)] 0x53];
   ent "fcvt.wu.d" ["fcvt_wud"] [Is [(31, 27)] 0x18; Is [(26, 25)] 1; Is [(24, 20)] 1; Is [(6, 0)] 0x53];
   ent "fcvt.d.wu" ["fcvt_dwu"] [Is [(31, 27)] 0x1a; Is [(26, 25)] 1; Is [(24, 20)] 1; Is [(6, 0)] 0x53];
   ent "fcvt.s.d" ["fcvt_sd"] [Is [(31, 27)] 8; Is [(26, 25)] 0; Is [(24, 20)] 1; Is [(6, 0)] 0x53];
   ent "fcvt.d.s" ["fcvt_ds"] [Is [(31, 27)] 8; Is [(26, 25)] 1; Is [(24, 20)] 0; Is [(6, 0)] 0x53]].

(** D, RV64. *)
Definition m_D64 : list entry := [
   ent "fld" ["fld"] [Is [(14, 12)] 3; Is [(6, 0)] 7];
   ent "fsd" ["fsd"] [Is [(14, 12)] 3; Is [(6, 0)] 0x27];
   ent "fmadd.d" ["fmadd_d"] [Is [(26, 25)] 1; Is [(6, 0)] 0x43];
   ent "fmsub.d" ["fmsub_d"] [Is [(26, 25)] 1; Is [(6, 0)] 0x47];
   ent "fnmsub.d" ["fnmsub_d"] [Is [(26, 25)] 1; Is [(6, 0)] 0x4b];
   ent "fnmadd.d" ["fnmadd_d"] [Is [(26, 25)] 1; Is [(6, 0)] 0x4f];
   ent "fadd.d" ["fadd_d"] [Is [(31, 27)] 0; Is [(26, 25)] 1; Is [(6, 0)] 0x53];
   ent "fsub.d" ["fsub_d"] [Is [(31, 27)] 1; Is [(26, 25)] 1; Is [(6, 0)] 0x53];
   ent "fmul.d" ["fmul_d"] [Is [(31, 27)] 2; Is [(26, 25)] 1; Is [(6, 0)] 0x53];
   ent "fdiv.d" ["fdiv_d"] [Is [(31, 27)] 3; Is [(26, 25)] 1; Is [(6, 0)] 0x53];
   ent "fsqrt.d" ["fsqrt_d"] [Is [(31, 27)] 0xb; Is [(26, 25)] 1; Is [(24, 20)] 0; Is [(6, 0)] 0x53];
   ent "fsgnj.d" ["fsgnj_d"] [Is [(31, 27)] 4; Is [(26, 25)] 1; Is [(14, 12)] 0; Is [(6, 0)] 0x53];
   ent "fsgnjn.d" ["fsgnjn_d"] [Is [(31, 27)] 4; Is [(26, 25)] 1; Is [(14, 12)] 1; Is [(6, 0)] 0x53];
   ent "fsgnjx.d" ["fsgnjx_d"] [Is [(31, 27)] 4; Is [(26, 25)] 1; Is [(14, 12)] 2; Is [(6, 0)] 0x53];
   ent "fmin.d" ["fmin_d"] [Is [(31, 27)] 5; Is [(26, 25)] 1; Is [(14, 12)] 0; Is [(6, 0)] 0x53];
   ent "fmax.d" ["fmax_d"] [Is [(31, 27)] 5; Is [(26, 25)] 1; Is [(14, 12)] 1; Is [(6, 0)] 0x53];
   ent "feq.d" ["fcmpeq_d"] [Is [(31, 27)] 0x14; Is [(26, 25)] 1; Is [(14, 12)] 2; Is [(6, 0)] 0x53];
   ent "flt.d" ["fcmplt_d"] [Is [(31, 27)] 0x14; Is [(26, 25)] 1; Is [(14, 12)] 1; Is [(6, 0)] 0x53];
   ent "fle.d" ["fcmple_d"] [Is [(31, 27)] 0x14; Is [(26, 25)] 1; Is [(14, 12)] 0; Is [(6, 0)] 0x53];
   ent "fclass.d" ["fclass_d"] [Is [(31, 27)] 0x1c; Is [(26, 25)] 1; Is [(24, 20)] 0; Is [(14, 12)] 1; Is [(6, 0)] 0x53];
   ent "fcvt.w.d" ["fcvt_wd"] [Is [(31, 27)] 0x18; Is [(26, 25)] 1; Is [(24, 20)] 0; Is [(6, 0)] 0x53];
   ent "fcvt.d.w" ["fcvt_dw"] [Is [(31, 27)] 0x1a; Is [(26, 25)] 1; Is [(24, 20)] 0; Is [(6, 0)] 0x53];
   ent "fcvt.wu.d" ["fcvt_wud"] [Is [(31, 27)] 0x18; Is [(26, 25)] 1; Is [(24, 20)] 1; Is [(6, 0)] 0x53];
   ent "fcvt.d.wu" ["fcvt_dwu"] [Is [(31, 27)] 0x1a; Is [(26, 25)] 1; Is [(24, 20)] 1; Is [(6, 0)] 0x53];
   ent "fmv.x.d" ["fmv_xd"] [Is [(31, 27)] 0x1c; Is [(26, 25)] 1; Is [(24, 20)] 0; Is [(14, 12)] 0; Is [(6, 0)] 0x53];
   ent "fmv.d.x" ["fmv_dx"] [Is [(31, 27)] 0x1e; Is [(26, 25)] 1; Is [(24, 20)] 0; Is [(14, 12)] 0; Is [(6, 0)] 0x53];
   ent "fcvt.s.d" ["fcvt_sd"] [Is [(31, 27)] 8; Is [(26, 25)] 0; Is [(24, 20)] 1; Is [(6, 0)] 0x53];
   ent "fcvt.d.s" ["fcvt_ds"] [Is [(31, 27)] 8; Is [(26, 25)] 1; Is [(24, 20)] 0; Is [(6, 0)] 0x53];
   ent "fcvt.l.d" ["fcvt_ld"] [Is [(31, 27)] 0x18; Is [(26, 25)] 1; Is [(24, 20)] 2; Is [(6, 0)] 0x53];
   ent "fcvt.d.l" ["fcvt_dl"] [Is [(31, 27)] 0x1a; Is [(26, 25)] 1; Is [(24, 20)] 2; Is [(6, 0)] 0x53];
   ent "fcvt.lu.d" ["fcvt_lud"] [Is [(31, 27)] 0x18; Is [(26, 25)] 1; Is [(24, 20)] 3; Is [(6, 0)] 0x53];
   ent "fcvt.d.lu" ["fcvt_dlu"] [Is [(31, 27)] 0x1a; Is [(26, 25)] 1; Is [(24, 20)] 3; Is [(6, 0)] 0x53]].

(** Zfh, RV32. *)
Definition m_Zfh32 : list entry := [
   ent "flh" ["flh"] [Is [(14, 12)] 1; Is [(6, 0)] 7];
   ent "fsh" ["fsh"] [Is [(14, 12)] 1; Is [(6, 0)] 0x27];
   ent "fmadd.h" ["fmadd_h"] [Is [(26, 25)] 2; Is [(6, 0)] 0x43];
   ent "fmsub.h" ["fmsub_h"] [Is [(26, 25)] 2; Is [(6, 0)] 0x47];
   ent "fnmsub.h" ["fnmsub_h"] [Is [(26, 25)] 2; Is [(6, 0)] 0x4b];
   ent "fnmadd.h" ["fnmadd_h"] [Is [(26, 25)] 2; Is [(6, 0)] 0x4f];
   ent "fadd.h" ["fadd_h"] [Is [(31, 27)] 0; Is [(26, 25)] 2; Is [(6, 0)] 0x53];
   ent "fsub.h" ["fsub_h"] [Is [(31, 27)] 1; Is [(26, 25)] 2; Is [(6, 0)] 0x53];
   ent "fmul.h" ["fmul_h"] [Is [(31, 27)] 2; Is [(26, 25)] 2; Is [(6, 0)] 0x53];
   ent "fdiv.h" ["fdiv_h"] [Is [(31, 27)] 3; Is [(26, 25)] 2; Is [(6, 0)] 0x53];
   ent "fsqrt.h" ["fsqrt_h"] [Is [(31, 27)] 0xb; Is [(26, 25)] 2; Is [(24, 20)] 0; Is [(6, 0)] 0x53];
   ent "fsgnj.h" ["fsgnj_h"] [Is [(31, 27)] 4; Is [(26, 25)] 2; Is [(14, 12)] 0; Is [(6, 0)] 0x53];
   ent "fsgnjn.h" ["fsgnjn_h"] [Is [(31, 27)] 4; Is [(26, 25)] 2; Is [(14, 12)] 1; Is [(6, 0)] 0x53];
   ent "fsgnjx.h" ["fsgnjx_h"] [Is [(31, 27)] 4; Is [(26, 25)] 2; Is [(14, 12)] 2; Is [(6, 0)] 0x53];
   ent "fmin.h" ["fmin_h"] [Is [(31, 27)] 5; Is [(26, 25)] 2; Is [(14, 12)] 0; Is [(6, 0)] 0x53];
   ent "fmax.h" ["fmax_h"] [Is [(31, 27)] 5; Is [(26, 25)] 2; Is [(14, 12)] 1; Is [(6, 0)] 0x53];
   ent "feq.h" ["fcmpeq_h"] [Is [(31, 27)] 0x14; Is [(26, 25)] 2; Is [(14, 12)] 2; Is [(6, 0)] 0x53];
   ent "flt.h" ["fcmplt_h"] [Is [(31, 27)] 0x14; Is [(26, 25)] 2; Is [(14, 12)] 1; Is [(6, 0)] 0x53];
   ent "fle.h" ["fcmple_h"] [Is [(31, 27)] 0x14; Is [(26, 25)] 2; Is [(14, 12)] 0; Is [(6, 0)] 0x53];
   ent "fclass.h" ["fclass_h"] [Is [(31, 27)] 0x1c; Is [(26, 25)] 2; Is [(24, 20)] 0; Is [(14, 12)] 1; Is [(6, 0)] 0x53];
   ent "fcvt.w.h" ["fcvt_wh"] [Is [(31, 27)] 0x18; Is [(26, 25)] 2; Is [(24, 20)] 0; Is [(6, 0)] 0x53];
   ent "fcvt.h.w" ["fcvt_hw"] [Is [(31, 27)] 0x1a; Is [(26, 25)] 2; Is [(24, 20)] 0; Is [(6, 0)] 0x53];
   ent "fcvt.wu.h" ["fcvt_wuh"] [Is [(31, 27)] 0x18; Is [(26, 25)] 2; Is [(24, 20)] 1; Is [(6, 0)] 0x53];
   ent "fcvt.h.wu" ["fcvt_hwu"] [Is [(31, 27)] 0x1a; Is [(26, 25)] 2; Is [(24, 20)] 1; Is [(6, 0)] 0x53];
   ent "fmv.x.h" ["fmv_xh"] [Is [(31, 27)] 0x1c; Is [(26, 25)] 2; Is [(24, 20)] 0; Is [(14, 12)] 0; Is [(6, 0)] 0x53];
   ent "fmv.h.x" ["fmv_hx"] [Is [(31, 27)] 0x1e; Is [(26, 25)] 2; Is [(24, 20)] 0; Is [(14, 12)] 0; Is [(6, 0)] 0x53];
   ent "fcvt.s.h" ["fcvt_sh"] [Is [(31, 27)] 8; Is [(26, 25)] 0; Is [(24, 20)] 2; Is [(6, 0)] 0x53];
   ent "fcvt.h.s" ["fcvt_hs"] [Is [(31, 27)] 8; Is [(26, 25)] 2; Is [(24, 20)] 0; Is [(6, 0)] 0x53];
   ent "fcvt.d.h" ["fcvt_dh"] [Is [(31, 27)] 8; Is [(26, 25)] 1; Is [(24, 20)] 2; Is [(6, 0)] 0x53];
   ent "fcvt.h.d" ["fcvt_hd"] [Is [(31, 27)] 8; Is [(26, 25)] 2; Is [(24, 20)] 1; Is [(6, 0)] 0x53]].

(** Zfh, RV64. *)
Definition m_Zfh64 : list entry := [
   ent "flh" ["flh"] [Is [(14, 12)] 1; Is [(6, 0)] 7];
   ent "fsh" ["fsh"] [Is [(14, 12)] 1; Is [(6, 0)] 0x27];
   ent "fmadd.h" ["fmadd_h"] [Is [(26, 25)] 2; Is [(6, 0)] 0x43];
   ent "fmsub.h" ["fmsub_h"] [Is [(26, 25)] 2; Is [(6, 0)] 0x47];
   ent "fnmsub.h" ["fnmsub_h"] [Is [(26, 25)] 2; Is [(6, 0)] 0x4b];
   ent "fnmadd.h" ["fnmadd_h"] [Is [(26, 25)] 2; Is [(6, 0)] 0x4f];
   ent "fadd.h" ["fadd_h"] [Is [(31, 27)] 0; Is [(26, 25)] 2; Is [(6, 0)] 0x53];
   ent "fsub.h" ["fsub_h"] [Is [(31, 27)] 1; Is [(26, 25)] 2; Is [(6, 0)] 0x53];
   ent "fmul.h" ["fmul_h"] [Is [(31, 27)] 2; Is [(26, 25)] 2; Is [(6, 0)] 0x53];
   ent "fdiv.h" ["fdiv_h"] [Is [(31, 27)] 3; Is [(26, 25)] 2; Is [(6, 0)] 0x53];
   ent "fsqrt.h" ["fsqrt_h"] [Is [(31, 27)] 0xb; Is [(26, 25)] 2; Is [(24, 20)] 0; Is [(6, 0)] 0x53];
   ent "fsgnj.h" ["fsgnj_h"] [Is [(31, 27)] 4; Is [(26, 25)] 2; Is [(14, 12)] 0; Is [(6, 0)] 0x53];
   ent "fsgnjn.h" ["fsgnjn_h"] [Is [(31, 27)] 4; Is [(26, 25)] 2; Is [(14, 12)] 1; Is [(6, 0)] 0x53];
   ent "fsgnjx.h" ["fsgnjx_h"] [Is [(31, 27)] 4; Is [(26, 25)] 2; Is [(14, 12)] 2; Is [(6, 0)] 0x53];
   ent "fmin.h" ["fmin_h"] [Is [(31, 27)] 5; Is [(26, 25)] 2; Is [(14, 12)] 0; Is [(6, 0)] 0x53];
   ent "fmax.h" ["fmax_h"] [Is [(31, 27)] 5; Is [(26, 25)] 2; Is [(14, 12)] 1; Is [(6, 0)] 0x53];
   ent "feq.h" ["fcmpeq_h"] [Is [(31, 27)] 0x14; Is [(26, 25)] 2; Is [(14, 12)] 2; Is [(6, 0)] 0x53];
   ent "flt.h" ["fcmplt_h"] [Is [(31, 27)] 0x14; Is [(26, 25)] 2; Is [(14, 12)] 1; Is [(6, 0)] 0x53];
   ent "fle.h" ["fcmple_h"] [Is [(31, 27)] 0x14; Is [(26, 25)] 2; Is [(14, 12)] 0; Is [(6, 0)] 0x53];
   ent "fclass.h" ["fclass_h"] [Is [(31, 27)] 0x1c; Is [(26, 25)] 2; Is [(24, 20)] 0; Is [(14, 12)] 1; Is [(6, 0)] 0x53];
   ent "fcvt.w.h" ["fcvt_wh"] [Is [(31, 27)] 0x18; Is [(26, 25)] 2; Is [(24, 20)] 0; Is [(6, 0)] 0x53];
   ent "fcvt.h.w" ["fcvt_hw"] [Is [(31, 27)] 0x1a; Is [(26, 25)] 2; Is [(24, 20)] 0; Is [(6, 0)] 0x53];
   ent "fcvt.wu.h" ["fcvt_wuh"] [Is [(31, 27)] 0x18; Is [(26, 25)] 2; Is [(24, 20)] 1; Is [(6, 0)] 0x53];
   ent "fcvt.h.wu" ["fcvt_hwu"] [Is [(31, 27)] 0x1a; Is [(26, 25)] 2; Is [(24, 20)] 1; Is [(6, 0)] 0x53];
   ent "fmv.x.h" ["fmv_xh"] [Is [(31, 27)] 0x1c; Is [(26, 25)] 2; Is [(24, 20)] 0; Is [(14, 12)] 0; Is [(6, 0)] 0x53];
   ent "fmv.h.x" ["fmv_hx"] [Is [(31, 27)] 0x1e; Is [(26, 25)] 2; Is [(24, 20)] 0; Is [(14, 12)] 0; Is [(6, 0)] 0x53];
   ent "fcvt.s.h" ["fcvt_sh"] [Is [(31, 27)] 8; Is [(26, 25)] 0; Is [(24, 20)] 2; Is [(6, 0)] 0x53];
   ent "fcvt.h.s" ["fcvt_hs"] [Is [(31, 27)] 8; Is [(26, 25)] 2; Is [(24, 20)] 0; Is [(6, 0)] 0x53];
   ent "fcvt.d.h" ["fcvt_dh"] [Is [(31, 27)] 8; Is [(26, 25)] 1; Is [(24, 20)] 2; Is [(6, 0)] 0x53];
   ent "fcvt.h.d" ["fcvt_hd"] [Is [(31, 27)] 8; Is [(26, 25)] 2; Is [(24, 20)] 1; Is [(6, 0)] 0x53];
   ent "fcvt.l.h" ["fcvt_lh"] [Is [(31, 27)] 0x18; Is [(26, 25)] 2; Is [(24, 20)] 2; Is [(6, 0)] 0x53];
   ent "fcvt.h.l" ["fcvt_hl"] [Is [(31, 27)] 0x1a; Is [(26, 25)] 2; Is [(24, 20)] 2; Is [(6, 0)] 0x53];
   ent "fcvt.lu.h" ["fcvt_luh"] [Is [(31, 27)] 0x18; Is [(26, 25)] 2; Is [(24, 20)] 3; Is [(6, 0)] 0x53];
   ent "fcvt.h.lu" ["fcvt_hlu"] [Is [(31, 27)] 0x1a; Is [(26, 25)] 2; Is [(24, 20)] 3; Is [(6, 0)] 0x53]].

(** Trap return, wfi and address-translation fence (privileged architecture; uret: the N extension). *)
Definition m_Priv : list entry := [
   ent "uret" ["uret"] [Is [(31, 20)] 2; Is [(19, 7)] 0; Is [(6, 0)] 0x73];
   ent "sret" ["sret"] [Is [(31, 20)] 0x102; Is [(19, 7)] 0; Is [(6, 0)] 0x73];
   ent "mret" ["mret"] [Is [(31, 20)] 0x302; Is [(19, 7)] 0; Is [(6, 0)] 0x73];
   ent "wfi" ["wfi"] [Is [(31, 20)] 0x105; Is [(19, 7)] 0; Is [(6, 0)] 0x73];
   ent "sfence.vma" ["sfence_vma_zz"; "sfence_vma_zn"; "sfence_vma_nz"; "sfence_vma_nn"] [Is [(31, 25)] 9; Is [(14, 12)] 0; Is [(11, 7)] 0; Is [(6, 0)] 0x73]].

(** Zba, Zbb, Zbc, Zbs, RV32. *)
Definition m_B32 : list entry := [
   ent "sh1add" ["sh1add"] [Is [(31, 25)] 0x10; Is [(14, 12)] 2; Is [(6, 0)] 0x33];
   ent "sh2add" ["sh2add"] [Is [(31, 25)] 0x10; Is [(14, 12)] 4; Is [(6, 0)] 0x33];
   ent "sh3add" ["sh3add"] [Is [(31, 25)] 0x10; Is [(14, 12)] 6; Is [(6, 0)] 0x33];
   ent "andn" ["andn"] [Is [(31, 25)] 0x20; Is [(14, 12)] 7; Is [(6, 0)] 0x33];
   ent "orn" ["orn"] [Is [(31, 25)] 0x20; Is [(14, 12)] 6; Is [(6, 0)] 0x33];
   ent "xnor" ["xnor"] [Is [(31, 25)] 0x20; Is [(14, 12)] 4; Is [(6, 0)] 0x33];
   ent "clz" ["clz"] [Is [(31, 20)] 0x600; Is [(14, 12)] 1; Is [(6, 0)] 0x13];
   ent "ctz" ["ctz"] [Is [(31, 20)] 0x601; Is [(14, 12)] 1; Is [(6, 0)] 0x13];
   ent "cpop" ["cpop"] [Is [(31, 20)] 0x602; Is [(14, 12)] 1; Is [(6, 0)] 0x13];
   ent "sext.b" ["sext_b"] [Is [(31, 20)] 0x604; Is [(14, 12)] 1; Is [(6, 0)] 0x13];
   ent "sext.h" ["sext_h"] [Is [(31, 20)] 0x605; Is [(14, 12)] 1; Is [(6, 0)] 0x13];
   ent "min" ["min"] [Is [(31, 25)] 5; Is [(14, 12)] 4; Is [(6, 0)] 0x33];
   ent "minu" ["minu"] [Is [(31, 25)] 5; Is [(14, 12)] 5; Is [(6, 0)] 0x33];
   ent "max" ["max"] [Is [(31, 25)] 5; Is [(14, 12)] 6; Is [(6, 0)] 0x33];
   ent "maxu" ["maxu"] [Is [(31, 25)] 5; Is [(14, 12)] 7; Is [(6, 0)] 0x33];
   ent "rol" ["rol"] [Is [(31, 25)] 0x30; Is [(14, 12)] 1; Is [(6, 0)] 0x33];
   ent "ror" ["ror"] [Is [(31, 25)] 0x30; Is [(14, 12)] 5; Is [(6, 0)] 0x33];
   ent "orc.b" ["orcb"] [Is [(31, 20)] 0x287; Is [(14, 12)] 5; Is [(6, 0)] 0x13];
   ent "clmul" ["clmul"] [Is [(31, 25)] 5; Is [(14, 12)] 1; Is [(6, 0)] 0x33];
   ent "clmulr" ["clmulr"] [Is [(31, 25)] 5; Is [(14, 12)] 2; Is [(6, 0)] 0x33];
   ent "clmulh" ["clmulh"] [Is [(31, 25)] 5; Is [(14, 12)] 3; Is [(6, 0)] 0x33];
   ent "bclr" ["bclr"] [Is [(31, 25)] 0x24; Is [(14, 12)] 1; Is [(6, 0)] 0x33];
   ent "bext" ["bext"] [Is [(31, 25)] 0x24; Is [(14, 12)] 5; Is [(6, 0)] 0x33];
   ent "binv" ["binv"] [Is [(31, 25)] 0x34; Is [(14, 12)] 1; Is [(6, 0)] 0x33];
   ent "bset" ["bset"] [Is [(31, 25)] 0x14; Is [(14, 12)] 1; Is [(6, 0)] 0x33];
   ent "rori" ["rori"] [Is [(31, 25)] 0x30; Is [(14, 12)] 5; Is [(6, 0)] 0x13];
   ent "bclri" ["bclri"] [Is [(31, 25)] 0x24; Is [(14, 12)] 1; Is [(6, 0)] 0x13];
   ent "bexti" ["bexti"] [Is [(31, 25)] 0x24; Is [(14, 12)] 5; Is [(6, 0)] 0x13];
   ent "binvi" ["binvi"] [Is [(31, 25)] 0x34; Is [(14, 12)] 1; Is [(6, 0)] 0x13];
   ent "bseti" ["bseti"] [Is [(31, 25)] 0x14; Is [(14, 12)] 1; Is [(6, 0)] 0x13];
   ent "rev8" ["rev8"] [Is [(31, 20)] 0x698; Is [(14, 12)] 5; Is [(6, 0)] 0x13];
   ent "zext.h" ["zext_h"] [Is [(31, 20)] 0x80; Is [(14, 12)] 4; Is [(6, 0)] 0x33]].

(** Zba, Zbb, Zbc, Zbs, RV64. *)
Definition m_B64 : list entry := [
   ent "sh1add" ["sh1add"] [Is [(31, 25)] 0x10; Is [(14, 12)] 2; Is [(6, 0)] 0x33];
   ent "sh2add" ["sh2add"] [Is [(31, 25)] 0x10; Is [(14, 12)] 4; Is [(6, 0)] 0x33];
   ent "sh3add" ["sh3add"] [Is [(31, 25)] 0x10; Is [(14, 12)] 6; Is [(6, 0)] 0x33];
   ent "andn" ["andn"] [Is [(31, 25)] 0x20; Is [(14, 12)] 7; Is [(6, 0)] 0x33];
   ent "orn" ["orn"] [Is [(31, 25)] 0x20; Is [(14, 12)] 6; Is [(6, 0)] 0x33];
   ent "xnor" ["xnor"] [Is [(31, 25)] 0x20; Is [(14, 12)] 4; Is [(6, 0)] 0x33];
   ent "clz" ["clz"] [Is [(31, 20)] 0x600; Is [(14, 12)] 1; Is [(6, 0)] 0x13];
   ent "ctz" ["ctz"] [Is [(31, 20)] 0x601; Is [(14, 12)] 1; Is [(6, 0)] 0x13];
   ent "cpop" ["cpop"] [Is [(31, 20)] 0x602; Is [(14, 12)] 1; Is [(6, 0)] 0x13];
   ent "sext.b" ["sext_b"] [Is [(31, 20)] 0x604; Is [(14, 12)] 1; Is [(6, 0)] 0x13];
   ent "sext.h" ["sext_h"] [Is [(31, 20)] 0x605; Is [(14, 12)] 1; Is [(6, 0)] 0x13];
   ent "min" ["min"] [Is [(31, 25)] 5; Is [(14, 12)] 4; Is [(6, 0)] 0x33];
   ent "minu" ["minu"] [Is [(31, 25)] 5; Is [(14, 12)] 5; Is [(6, 0)] 0x33];
   ent "max" ["max"] [Is [(31, 25)] 5; Is [(14, 12)] 6; Is [(6, 0)] 0x33];
   ent "maxu" ["maxu"] [Is [(31, 25)] 5; Is [(14, 12)] 7; Is [(6, 0)] 0x33];
   ent "rol" ["rol"] [Is [(31, 25)] 0x30; Is [(14, 12)] 1; Is [(6, 0)] 0x33];
   ent "ror" ["ror"] [Is [(31, 25)] 0x30; Is [(14, 12)] 5; Is [(6, 0)] 0x33];
   ent "orc.b" ["orcb"] [Is [(31, 20)] 0x287; Is [(14, 12)] 5; Is [(6, 0)] 0x13];
   ent "clmul" ["clmul"] [Is [(31, 25)] 5; Is [(14, 12)] 1; Is [(6, 0)] 0x33];
   ent "clmulr" ["clmulr"] [Is [(31, 25)] 5; Is [(14, 12)] 2; Is [(6, 0)] 0x33];
   ent "clmulh" ["clmulh"] [Is [(31, 25)] 5; Is [(14, 12)] 3; Is [(6, 0)] 0x33];
   ent "bclr" ["bclr"] [Is [(31, 25)] 0x24; Is [(14, 12)] 1; Is [(6, 0)] 0x33];
   ent "bext" ["bext"] [Is [(31, 25)] 0x24; Is [(14, 12)] 5; Is [(6, 0)] 0x33];
   ent "binv" ["binv"] [Is [(31, 25)] 0x34; Is [(14, 12)] 1; Is [(6, 0)] 0x33];
   ent "bset" ["bset"] [Is [(31, 25)] 0x14; Is [(14, 12)] 1; Is [(6, 0)] 0x33];
   ent "rori" ["rori"] [Is [(31, 26)] 0x18; Is [(14, 12)] 5; Is [(6, 0)] 0x13];
   ent "bclri" ["bclri"] [Is [(31, 26)] 0x12; Is [(14, 12)] 1; Is [(6, 0)] 0x13];
   ent "bexti" ["bexti"] [Is [(31, 26)] 0x12; Is [(14, 12)] 5; Is [(6, 0)] 0x13];
   ent "binvi" ["binvi"] [Is [(31, 26)] 0x1a; Is [(14, 12)] 1; Is [(6, 0)] 0x13];
   ent "bseti" ["bseti"] [Is [(31, 26)] 0xa; Is [(14, 12)] 1; Is [(6, 0)] 0x13];
   ent "rev8" ["rev8"] [Is [(31, 20)] 0x6b8; Is [(14, 12)] 5; Is [(6, 0)] 0x13];
   ent "zext.h" ["zext_h"] [Is [(31, 20)] 0x80; Is [(14, 12)] 4; Is [(6, 0)] 0x3b];
   ent "add.uw" ["add_uw"] [Is [(31, 25)] 4; Is [(14, 12)] 0; Is [(6, 0)] 0x3b];
   ent "sh1add.uw" ["sh1add_uw"] [Is [(31, 25)] 0x10; Is [(14, 12)] 2; Is [(6, 0)] 0x3b];
   ent "sh2add.uw" ["sh2add_uw"] [Is [(31, 25)] 0x10; Is [(14, 12)] 4; Is [(6, 0)] 0x3b];
   ent "sh3add.uw" ["sh3add_uw"] [Is [(31, 25)] 0x10; Is [(14, 12)] 6; Is [(6, 0)] 0x3b];
   ent "slli.uw" ["slli_uw"] [Is [(31, 26)] 2; Is [(14, 12)] 1; Is [(6, 0)] 0x1b];
   ent "clzw" ["clzw"] [Is [(31, 20)] 0x600; Is [(14, 12)] 1; Is [(6, 0)] 0x1b];
   ent "ctzw" ["ctzw"] [Is [(31, 20)] 0x601; Is [(14, 12)] 1; Is [(6, 0)] 0x1b];
   ent "cpopw" ["cpopw"] [Is [(31, 20)] 0x602; Is [(14, 12)] 1; Is [(6, 0)] 0x1b];
   ent "rolw" ["rolw"] [Is [(31, 25)] 0x30; Is [(14, 12)] 1; Is [(6, 0)] 0x3b];
   ent "rorw" ["rorw"] [Is [(31, 25)] 0x30; Is [(14, 12)] 5; Is [(6, 0)] 0x3b];
   ent "roriw" ["roriw"] [Is [(31, 25)] 0x30; Is [(14, 12)] 5; Is [(6, 0)] 0x1b]].

(** Zicond. *)
Definition m_Zicond : list entry := [
   ent "czero.eqz" ["czero_eqz"] [Is [(31, 25)] 7; Is [(14, 12)] 5; Is [(6, 0)] 0x33];
   ent "czero.nez" ["czero_nez"] [Is [(31, 25)] 7; Is [(14, 12)] 7; Is [(6, 0)] 0x33]].

(** Zimop. *)
Definition m_Zimop : list entry := [
   ent "mop.r.0" ["mop_r_0"] [Is [(31, 31)] 1; Is [(30, 30)] 0; Is [(29, 28)] 0; Is [(27, 26)] 0; Is [(25, 22)] 7; Is [(21, 20)] 0; Is [(14, 12)] 4; Is [(6, 0)] 0x73];
   ent "mop.r.1" ["mop_r_1"] [Is [(31, 31)] 1; Is [(30, 30)] 0; Is [(29, 28)] 0; Is [(27, 26)] 0; Is [(25, 22)] 7; Is [(21, 20)] 1; Is [(14, 12)] 4; Is [(6, 0)] 0x73];
   ent "mop.r.2" ["mop_r_2"] [Is [(31, 31)] 1; Is [(30, 30)] 0; Is [(29, 28)] 0; Is [(27, 26)] 0; Is [(25, 22)] 7; Is [(21, 20)] 2; Is [(14, 12)] 4; Is [(6, 0)] 0x73];
   ent "mop.r.3" ["mop_r_3"] [Is [(31, 31)] 1; Is [(30, 30)] 0; Is [(29, 28)] 0; Is [(27, 26)] 0; Is [(25, 22)] 7; Is [(21, 20)] 3; Is [(14, 12)] 4; Is [(6, 0)] 0x73];
   ent "mop.r.4" ["mop_r_4"] [Is [(31, 31)] 1; Is [(30, 30)] 0; Is [(29, 28)] 0; Is [(27, 26)] 1; Is [(25, 22)] 7; Is [(21, 20)] 0; Is [(14, 12)] 4; Is [(6, 0)] 0x73];
   ent "mop.r.5" ["mop_r_5"] [Is [(31, 31)] 1; Is [(30, 30)] 0; Is [(29, 28)] 0; Is [(27, 26)] 1; Is [(25, 22)] 7; Is [(21, 20)] 1; Is [(14, 12)] 4; Is [(6, 0)] 0x73];
   ent "mop.r.6" ["mop_r_6"] [Is [(31, 31)] 1; Is [(30, 30)] 0; Is [(29, 28)] 0; Is [(27, 26)] 1; Is [(25, 22)] 7; Is [(21, 20)] 2; Is [(14, 12)] 4; Is [(6, 0)] 0x73];
   ent "mop.r.7" ["mop_r_7"] [Is [(31, 31)] 1; Is [(30, 30)] 0; Is [(29, 28)] 0; Is [(27, 26)] 1; Is [(25, 22)] 7; Is [(21, 20)] 3; Is [(14, 12)] 4; Is [(6, 0)] 0x73];
   ent "mop.r.8" ["mop_r_8"] [Is [(31, 31)] 1; Is [(30, 30)] 0; Is [(29, 28)] 0; Is [(27, 26)] 2; Is [(25, 22)] 7; Is [(21, 20)] 0; Is [(14, 12)] 4; Is [(6, 0)] 0x73];
   ent "mop.r.9" ["mop_r_9"] [Is [(31, 31)] 1; Is [(30, 30)] 0; Is [(29, 28)] 0; Is [(27, 26)] 2; Is [(25, 22)] 7; Is [(21, 20)] 1; Is [(14, 12)] 4; Is [(6, 0)] 0x73];
   ent "mop.r.10" ["mop_r_10"] [Is [(31, 31)] 1; Is [(30, 30)] 0; Is [(29, 28)] 0; Is [(27, 26)] 2; Is [(25, 22)] 7; Is [(21, 20)] 2; Is [(14, 12)] 4; Is [(6, 0)] 0x73];
   ent "mop.r.11" ["mop_r_11"] [Is [(31, 31)] 1; Is [(30, 30)] 0; Is [(29, 28)] 0; Is [(27, 26)] 2; Is [(25, 22)] 7; Is [(21, 20)] 3; Is [(14, 12)] 4; Is [(6, 0)] 0x73];
   ent "mop.r.12" ["mop_r_12"] [Is [(31, 31)] 1; Is [(30, 30)] 0; Is [(29, 28)] 0; Is [(27, 26)] 3; Is [(25, 22)] 7; Is [(21, 20)] 0; Is [(14, 12)] 4; Is [(6, 0)] 0x73];
   ent "mop.r.13" ["mop_r_13"] [Is [(31, 31)] 1; Is [(30, 30)] 0; Is [(29, 28)] 0; Is [(27, 26)] 3; Is [(25, 22)] 7; Is [(21, 20)] 1; Is [(14, 12)] 4; Is [(6, 0)] 0x73];
   ent "mop.r.14" ["mop_r_14"] [Is [(31, 31)] 1; Is [(30, 30)] 0; Is [(29, 28)] 0; Is [(27, 26)] 3; Is [(25, 22)] 7; Is [(21, 20)] 2; Is [(14, 12)] 4; Is [(6, 0)] 0x73];
   ent "mop.r.15" ["mop_r_15"] [Is [(31, 31)] 1; Is [(30, 30)] 0; Is [(29, 28)] 0; Is [(27, 26)] 3; Is [(25, 22)] 7; Is [(21, 20)] 3; Is [(14, 12)] 4; Is [(6, 0)] 0x73];
   ent "mop.r.16" ["mop_r_16"] [Is [(31, 31)] 1; Is [(30, 30)] 1; Is [(29, 28)] 0; Is [(27, 26)] 0; Is [(25, 22)] 7; Is [(21, 20)] 0; Is [(14, 12)] 4; Is [(6, 0)] 0x73];
   ent "mop.r.17" ["mop_r_17"] [Is [(31, 31)] 1; Is [(30, 30)] 1; Is [(29, 28)] 0; Is [(27, 26)] 0; Is [(25, 22)] 7; Is [(21, 20)] 1; Is [(14, 12)] 4; Is [(6, 0)] 0x73];
   ent "mop.r.18" ["mop_r_18"] [Is [(31, 31)] 1; Is [(30, 30)] 1; Is [(29, 28)] 0; Is [(27, 26)] 0; Is [(25, 22)] 7; Is [(21, 20)] 2; Is [(14, 12)] 4; Is [(6, 0)] 0x73];
   ent "mop.r.19" ["mop_r_19"] [Is [(31, 31)] 1; Is [(30, 30)] 1; Is [(29, 28)] 0; Is [(27, 26)] 0; Is [(25, 22)] 7; Is [(21, 20)] 3; Is [(14, 12)] 4; Is [(6, 0)] 0x73];
   ent "mop.r.20" ["mop_r_20"] [Is [(31, 31)] 1; Is [(30, 30)] 1; Is [(29, 28)] 0; Is [(27, 26)] 1; Is [(25, 22)] 7; Is [(21, 20)] 0; Is [(14, 12)] 4; Is [(6, 0)] 0x73];
   ent "mop.r.21" ["mop_r_21"] [Is [(31, 31)] 1; Is [(30, 30)] 1; Is [(29, 28)] 0; Is [(27, 26)] 1; Is [(25, 22)] 7; Is [(21, 20)] 1; Is [(14, 12)] 4; Is [(6, 0)] 0x73];
   ent "mop.r.22" ["mop_r_22"] [Is [(31, 31)] 1; Is [(30, 30)] 1; Is [(29, 28)] 0; Is [(27, 26)] 1; Is [(25, 22)] 7; Is [(21, 20)] 2; Is [(14, 12)] 4; Is [(6, 0)] 0x73];
   ent "mop.r.23" ["mop_r_23"] [Is [(31, 31)] 1; Is [(30, 30)] 1; Is [(29, 28)] 0; Is [(27, 26)] 1; Is [(25, 22)] 7; Is [(21, 20)] 3; Is [(14, 12)] 4; Is [(6, 0)] 0x73];
   ent "mop.r.24" ["mop_r_24"] [Is [(31, 31)] 1; Is [(30, 30)] 1; Is [(29, 28)] 0; Is [(27, 26)] 2; Is [(25, 22)] 7; Is [(21, 20)] 0; Is [(14, 12)] 4; Is [(6, 0)] 0x73];
   ent "mop.r.25" ["mop_r_25"] [Is [(31, 31)] 1; Is [(30, 30)] 1; Is [(29, 28)] 0; Is [(27, 26)] 2; Is [(25, 22)] 7; Is [(21, 20)] 1; Is [(14, 12)] 4; Is [(6, 0)] 0x73];
   ent "mop.r.26" ["mop_r_26"] [Is [(31, 31)] 1; Is [(30, 30)] 1; Is [(29, 28)] 0; Is [(27, 26)] 2; Is [(25, 22)] 7; Is [(21, 20)] 2; Is [(14, 12)] 4; Is [(6, 0)] 0x73];
   ent "mop.r.27" ["mop_r_27"] [Is [(31, 31)] 1; Is [(30, 30)] 1; Is [(29, 28)] 0; Is [(27, 26)] 2; Is [(25, 22)] 7; Is [(21, 20)] 3; Is [(14, 12)] 4; Is [(6, 0)] 0x73];
   ent "mop.r.28" ["mop_r_28"] [Is [(31, 31)] 1; Is [(30, 30)] 1; Is [(29, 28)] 0; Is [(27, 26)] 3; Is [(25, 22)] 7; Is [(21, 20)] 0; Is [(14, 12)] 4; Is [(6, 0)] 0x73];
   ent "mop.r.29" ["mop_r_29"] [Is [(31, 31)] 1; Is [(30, 30)] 1; Is [(29, 28)] 0; Is [(27, 26)] 3; Is [(25, 22)] 7; Is [(21, 20)] 1; Is [(14, 12)] 4; Is [(6, 0)] 0x73];
   ent "mop.r.30" ["mop_r_30"] [Is [(31, 31)] 1; Is [(30, 30)] 1; Is [(29, 28)] 0; Is [(27, 26)] 3; Is [(25, 22)] 7; Is [(21, 20)] 2; Is [(14, 12)] 4; Is [(6, 0)] 0x73];
   ent "mop.r.31" ["mop_r_31"] [Is [(31, 31)] 1; Is [(30, 30)] 1; Is [(29, 28)] 0; Is [(27, 26)] 3; Is [(25, 22)] 7; Is [(21, 20)] 3; Is [(14, 12)] 4; Is [(6, 0)] 0x73];
   ent "mop.rr.0" ["mop_rr_0"] [Is [(31, 31)] 1; Is [(30, 30)] 0; Is [(29, 28)] 0; Is [(27, 26)] 0; Is [(25, 25)] 1; Is [(14, 12)] 4; Is [(6, 0)] 0x73];
   ent "mop.rr.1" ["mop_rr_1"] [Is [(31, 31)] 1; Is [(30, 30)] 0; Is [(29, 28)] 0; Is [(27, 26)] 1; Is [(25, 25)] 1; Is [(14, 12)] 4; Is [(6, 0)] 0x73];
   ent "mop.rr.2" ["mop_rr_2"] [Is [(31, 31)] 1; Is [(30, 30)] 0; Is [(29, 28)] 0; Is [(27, 26)] 2; Is [(25, 25)] 1; Is [(14, 12)] 4; Is [(6, 0)] 0x73];
   ent "mop.rr.3" ["mop_rr_3"] [Is [(31, 31)] 1; Is [(30, 30)] 0; Is [(29, 28)] 0; Is [(27, 26)] 3; Is [(25, 25)] 1; Is [(14, 12)] 4; Is [(6, 0)] 0x73];
   ent "mop.rr.4" ["mop_rr_4"] [Is [(31, 31)] 1; Is [(30, 30)] 1; Is [(29, 28)] 0; Is [(27, 26)] 0; Is [(25, 25)] 1; Is [(14, 12)] 4; Is [(6, 0)] 0x73];
   ent "mop.rr.5" ["mop_rr_5"] [Is [(31, 31)] 1; Is [(30, 30)] 1; Is [(29, 28)] 0; Is [(27, 26)] 1; Is [(25, 25)] 1; Is [(14, 12)] 4; Is [(6, 0)] 0x73];
   ent "mop.rr.6" ["mop_rr_6"] [Is [(31, 31)] 1; Is [(30, 30)] 1; Is [(29, 28)] 0; Is [(27, 26)] 2; Is [(25, 25)] 1; Is [(14, 12)] 4; Is [(6, 0)] 0x73];
   ent "mop.rr.7" ["mop_rr_7"] [Is [(31, 31)] 1; Is [(30, 30)] 1; Is [(29, 28)] 0; Is [(27, 26)] 3; Is [(25, 25)] 1; Is [(14, 12)] 4; Is [(6, 0)] 0x73]].

(** Zihintpause. *)
Definition m_Zihintpause : list entry := [
   ent "pause" ["pause"] [Is [(31, 20)] 0x10; Is [(19, 15)] 0; Is [(14, 12)] 0; Is [(11, 7)] 0; Is [(6, 0)] 0xf]].

(** Zihintntl. *)
Definition m_Zihintntl : list entry := [
   ent "ntl.p1" ["ntl_p1"] [Is [(31, 25)] 0; Is [(24, 20)] 2; Is [(19, 15)] 0; Is [(14, 12)] 0; Is [(11, 7)] 0; Is [(6, 0)] 0x33];
   ent "ntl.pall" ["ntl_pall"] [Is [(31, 25)] 0; Is [(24, 20)] 3; Is [(19, 15)] 0; Is [(14, 12)] 0; Is [(11, 7)] 0; Is [(6, 0)] 0x33];
   ent "ntl.s1" ["ntl_s1"] [Is [(31, 25)] 0; Is [(24, 20)] 4; Is [(19, 15)] 0; Is [(14, 12)] 0; Is [(11, 7)] 0; Is [(6, 0)] 0x33];
   ent "ntl.all" ["ntl_all"] [Is [(31, 25)] 0; Is [(24, 20)] 5; Is [(19, 15)] 0; Is [(14, 12)] 0; Is [(11, 7)] 0; Is [(6, 0)] 0x33]].

(** Zicbop (prefetches). *)
Definition m_Zicbop : list entry := [
   ent "prefetch.i" ["prefetch_i"] [Is [(24, 20)] 0; Is [(14, 12)] 6; Is [(11, 7)] 0; Is [(6, 0)] 0x13];
   ent "prefetch.r" ["prefetch_r"] [Is [(24, 20)] 1; Is [(14, 12)] 6; Is [(11, 7)] 0; Is [(6, 0)] 0x13];
   ent "prefetch.w" ["prefetch_w"] [Is [(24, 20)] 3; Is [(14, 12)] 6; Is [(11, 7)] 0; Is [(6, 0)] 0x13]].

(** Zca, RV32. *)
Definition m_Zca32 : list entry := [
   ent "c.addi4spn" ["caddi4spn"] [Is [(15, 13)] 0; Isnt [(12, 5)] 0; Is [(1, 0)] 0];
   ent "c.lw" ["clw"] [Is [(15, 13)] 2; Is [(1, 0)] 0];
   ent "c.sw" ["csw"] [Is [(15, 13)] 6; Is [(1, 0)] 0];
   ent "c.nop" ["cnop"; "cnop_hint"] [Is [(15, 13)] 0; Is [(11, 7)] 0; Is [(1, 0)] 1];
   ent "c.addi" ["caddi"; "caddi_hint"] [Is [(15, 13)] 0; Isnt [(11, 7)] 0; Is [(1, 0)] 1];
   ent "c.li" ["cli"; "cli_hint"] [Is [(15, 13)] 2; Is [(1, 0)] 1];
   ent "c.addi16sp" ["caddi16sp"] [Is [(15, 13)] 3; Is [(11, 7)] 2; Isnt [(12, 12); (6, 2)] 0; Is [(1, 0)] 1];
   ent "c.lui" ["clui"; "clui_hint"] [Is [(15, 13)] 3; Isnt [(11, 7)] 2; Isnt [(12, 12); (6, 2)] 0; Is [(1, 0)] 1];
   ent "c.srli" ["csrli"] [Is [(15, 13)] 4; Is [(12, 12)] 0; Is [(11, 10)] 0; Is [(1, 0)] 1];
   ent "c.srai" ["csrai"] [Is [(15, 13)] 4; Is [(12, 12)] 0; Is [(11, 10)] 1; Is [(1, 0)] 1];
   ent "c.andi" ["candi"] [Is [(15, 13)] 4; Is [(11, 10)] 2; Is [(1, 0)] 1];
   ent "c.sub" ["csub"] [Is [(15, 10)] 0x23; Is [(6, 5)] 0; Is [(1, 0)] 1];
   ent "c.xor" ["cxor"] [Is [(15, 10)] 0x23; Is [(6, 5)] 1; Is [(1, 0)] 1];
   ent "c.or" ["cor"] [Is [(15, 10)] 0x23; Is [(6, 5)] 2; Is [(1, 0)] 1];
   ent "c.and" ["cand"] [Is [(15, 10)] 0x23; Is [(6, 5)] 3; Is [(1, 0)] 1];
   ent "c.j" ["cj"] [Is [(15, 13)] 5; Is [(1, 0)] 1];
   ent "c.beqz" ["cbeqz"] [Is [(15, 13)] 6; Is [(1, 0)] 1];
   ent "c.bnez" ["cbnez"] [Is [(15, 13)] 7; Is [(1, 0)] 1];
   ent "c.slli" ["cslli"; "cslli_hint"] [Is [(15, 13)] 0; Is [(12, 12)] 0; Is [(1, 0)] 2];
   ent "c.lwsp" ["clwsp"] [Is [(15, 13)] 2; Isnt [(11, 7)] 0; Is [(1, 0)] 2];
   ent "c.jr" ["cjr"] [Is [(15, 12)] 8; Isnt [(11, 7)] 0; Is [(6, 2)] 0; Is [(1, 0)] 2];
   ent "c.mv" ["cmv"; "cmv_hint"] [Is [(15, 12)] 8; Isnt [(6, 2)] 0; Is [(1, 0)] 2];
   ent "c.ebreak" ["cebreak"] [Is [(15, 12)] 9; Is [(11, 2)] 0; Is [(1, 0)] 2];
   ent "c.jalr" ["cjalr"] [Is [(15, 12)] 9; Isnt [(11, 7)] 0; Is [(6, 2)] 0; Is [(1, 0)] 2];
   ent "c.add" ["cadd"; "cadd_hint"; "c_ntl_p1"; "c_ntl_pall"; "c_ntl_s1"; "c_ntl_all"] [Is [(15, 12)] 9; Isnt [(6, 2)] 0; Is [(1, 0)] 2];
   ent "c.swsp" ["cswsp"] [Is [(15, 13)] 6; Is [(1, 0)] 2];
   ent "c.unimp" ["cunimp"] [Is [(15, 0)] 0];
   ent "c.jal" ["cjal"] [Is [(15, 13)] 1; Is [(1, 0)] 1]].

(** Zcd. *)
Definition m_Zcd : list entry := [
   ent "c.fld" ["cfld"] [Is [(15, 13)] 1; Is [(1, 0)] 0];
   ent "c.fsd" ["cfsd"] [Is [(15, 13)] 5; Is [(1, 0)] 0];
   ent "c.fldsp" ["cfldsp"] [Is [(15, 13)] 1; Is [(1, 0)] 2];
   ent "c.fsdsp" ["cfsdsp"] [Is [(15, 13)] 5; Is [(1, 0)] 2]].

(** Zcf. *)
Definition m_Zcf : list entry := [
   ent "c.flw" ["cflw"] [Is [(15, 13)] 3; Is [(1, 0)] 0];
   ent "c.fsw" ["cfsw"] [Is [(15, 13)] 7; Is [(1, 0)] 0];
   ent "c.flwsp" ["cflwsp"] [Is [(15, 13)] 3; Is [(1, 0)] 2];
   ent "c.fswsp" ["cfswsp"] [Is [(15, 13)] 7; Is [(1, 0)] 2]].

(** Zca, RV64. *)
Definition m_Zca64 : list entry := [
   ent "c.addi4spn" ["caddi4spn"] [Is [(15, 13)] 0; Isnt [(12, 5)] 0; Is [(1, 0)] 0];
   ent "c.lw" ["clw"] [Is [(15, 13)] 2; Is [(1, 0)] 0];
   ent "c.sw" ["csw"] [Is [(15, 13)] 6; Is [(1, 0)] 0];
   ent "c.nop" ["cnop"; "cnop_hint"] [Is [(15, 13)] 0; Is [(11, 7)] 0; Is [(1, 0)] 1];
   ent "c.addi" ["caddi"; "caddi_hint"] [Is [(15, 13)] 0; Isnt [(11, 7)] 0; Is [(1, 0)] 1];
   ent "c.li" ["cli"; "cli_hint"] [Is [(15, 13)] 2; Is [(1, 0)] 1];
   ent "c.addi16sp" ["caddi16sp"] [Is [(15, 13)] 3; Is [(11, 7)] 2; Isnt [(12, 12); (6, 2)] 0; Is [(1, 0)] 1];
   ent "c.lui" ["clui"; "clui_hint"] [Is [(15, 13)] 3; Isnt [(11, 7)] 2; Isnt [(12, 12); (6, 2)] 0; Is [(1, 0)] 1];
   ent "c.srli" ["csrli"] [Is [(15, 13)] 4; Is [(11, 10)] 0; Is [(1, 0)] 1];
   ent "c.srai" ["csrai"] [Is [(15, 13)] 4; Is [(11, 10)] 1; Is [(1, 0)] 1];
   ent "c.andi" ["candi"] [Is [(15, 13)] 4; Is [(11, 10)] 2; Is [(1, 0)] 1];
   ent "c.sub" ["csub"] [Is [(15, 10)] 0x23; Is [(6, 5)] 0; Is [(1, 0)] 1];
   ent "c.xor" ["cxor"] [Is [(15, 10)] 0x23; Is [(6, 5)] 1; Is [(1, 0)] 1];
   ent "c.or" ["cor"] [Is [(15, 10)] 0x23; Is [(6, 5)] 2; Is [(1, 0)] 1];
   ent "c.and" ["cand"] [Is [(15, 10)] 0x23; Is [(6, 5)] 3; Is [(1, 0)] 1];
   ent "c.j" ["cj"] [Is [(15, 13)] 5; Is [(1, 0)] 1];
   ent "c.beqz" ["cbeqz"] [Is [(15, 13)] 6; Is [(1, 0)] 1];
   ent "c.bnez" ["cbnez"] [Is [(15, 13)] 7; Is [(1, 0)] 1];
   ent "c.slli" ["cslli"; "cslli_hint"] [Is [(15, 13)] 0; Is [(1, 0)] 2];
   ent "c.lwsp" ["clwsp"] [Is [(15, 13)] 2; Isnt [(11, 7)] 0; Is [(1, 0)] 2];
   ent "c.jr" ["cjr"] [Is [(15, 12)] 8; Isnt [(11, 7)] 0; Is [(6, 2)] 0; Is [(1, 0)] 2];
   ent "c.mv" ["cmv"; "cmv_hint"] [Is [(15, 12)] 8; Isnt [(6, 2)] 0; Is [(1, 0)] 2];
   ent "c.ebreak" ["cebreak"] [Is [(15, 12)] 9; Is [(11, 2)] 0; Is [(1, 0)] 2];
   ent "c.jalr" ["cjalr"] [Is [(15, 12)] 9; Isnt [(11, 7)] 0; Is [(6, 2)] 0; Is [(1, 0)] 2];
   ent "c.add" ["cadd"; "cadd_hint"; "c_ntl_p1"; "c_ntl_pall"; "c_ntl_s1"; "c_ntl_all"] [Is [(15, 12)] 9; Isnt [(6, 2)] 0; Is [(1, 0)] 2];
   ent "c.swsp" ["cswsp"] [Is [(15, 13)] 6; Is [(1, 0)] 2];
   ent "c.unimp" ["cunimp"] [Is [(15, 0)] 0];
   ent "c.ld" ["cld"] [Is [(15, 13)] 3; Is [(1, 0)] 0];
   ent "c.sd" ["csd"] [Is [(15, 13)] 7; Is [(1, 0)] 0];
   ent "c.ldsp" ["cldsp"] [Is [(15, 13)] 3; Isnt [(11, 7)] 0; Is [(1, 0)] 2];
   ent "c.sdsp" ["csdsp"] [Is [(15, 13)] 7; Is [(1, 0)] 2];
   ent "c.addiw" ["caddiw"] [Is [(15, 13)] 1; Isnt [(11, 7)] 0; Is [(1, 0)] 1];
   ent "c.subw" ["csubw"] [Is [(15, 10)] 0x27; Is [(6, 5)] 0; Is [(1, 0)] 1];
   ent "c.addw" ["caddw"] [Is [(15, 10)] 0x27; Is [(6, 5)] 1; Is [(1, 0)] 1]].

(** Zcb. *)
Definition m_Zcb : list entry := [
   ent "c.lbu" ["c_lbu"] [Is [(15, 10)] 0x20; Is [(1, 0)] 0];
   ent "c.lhu" ["c_lhu"] [Is [(15, 10)] 0x21; Is [(6, 6)] 0; Is [(1, 0)] 0];
   ent "c.lh" ["c_lh"] [Is [(15, 10)] 0x21; Is [(6, 6)] 1; Is [(1, 0)] 0];
   ent "c.sb" ["c_sb"] [Is [(15, 10)] 0x22; Is [(1, 0)] 0];
   ent "c.sh" ["c_sh"] [Is [(15, 10)] 0x23; Is [(6, 6)] 0; Is [(1, 0)] 0];
   ent "c.zext.b" ["c_zext_b"] [Is [(15, 10)] 0x27; Is [(6, 2)] 0x18; Is [(1, 0)] 1];
   ent "c.sext.b" ["c_sext_b"] [Is [(15, 10)] 0x27; Is [(6, 2)] 0x19; Is [(1, 0)] 1];
   ent "c.zext.h" ["c_zext_h"] [Is [(15, 10)] 0x27; Is [(6, 2)] 0x1a; Is [(1, 0)] 1];
   ent "c.sext.h" ["c_sext_h"] [Is [(15, 10)] 0x27; Is [(6, 2)] 0x1b; Is [(1, 0)] 1];
   ent "c.not" ["c_not"] [Is [(15, 10)] 0x27; Is [(6, 2)] 0x1d; Is [(1, 0)] 1];
   ent "c.mul" ["c_mul"] [Is [(15, 10)] 0x27; Is [(6, 5)] 2; Is [(1, 0)] 1]].

(** Zcmp. *)
Definition m_Zcmp : list entry := [
   ent "cm.push" ["cm_push"] [Is [(15, 8)] 0xb8; Atleast [(7, 4)] 4; Is [(1, 0)] 2];
   ent "cm.pop" ["cm_pop"] [Is [(15, 8)] 0xba; Atleast [(7, 4)] 4; Is [(1, 0)] 2];
   ent "cm.popretz" ["cm_popretz"] [Is [(15, 8)] 0xbc; Atleast [(7, 4)] 4; Is [(1, 0)] 2];
   ent "cm.popret" ["cm_popret"] [Is [(15, 8)] 0xbe; Atleast [(7, 4)] 4; Is [(1, 0)] 2];
   ent "cm.mvsa01" ["cm_mvsa01"] [Is [(15, 10)] 0x2b; Is [(6, 5)] 1; Differ (9, 7) (4, 2); Is [(1, 0)] 2];
   ent "cm.mva01s" ["cm_mva01s"] [Is [(15, 10)] 0x2b; Is [(6, 5)] 3; Is [(1, 0)] 2]].

(** Zcmt. *)
Definition m_Zcmt : list entry := [
   ent "cm.jt" ["cm_jt"] [Is [(15, 10)] 0x28; Below [(9, 2)] 0x20; Is [(1, 0)] 2];
   ent "cm.jalt" ["cm_jalt"] [Is [(15, 10)] 0x28; Atleast [(9, 2)] 0x20; Is [(1, 0)] 2]].

(** Zcmop. *)
Definition m_Zcmop : list entry := [
   ent "c.mop.1" ["c_mop_1"] [Is [(15, 11)] 0xc; Is [(10, 8)] 0; Is [(7, 7)] 1; Is [(6, 2)] 0; Is [(1, 0)] 1];
   ent "c.mop.3" ["c_mop_3"] [Is [(15, 11)] 0xc; Is [(10, 8)] 1; Is [(7, 7)] 1; Is [(6, 2)] 0; Is [(1, 0)] 1];
   ent "c.mop.5" ["c_mop_5"] [Is [(15, 11)] 0xc; Is [(10, 8)] 2; Is [(7, 7)] 1; Is [(6, 2)] 0; Is [(1, 0)] 1];
   ent "c.mop.7" ["c_mop_7"] [Is [(15, 11)] 0xc; Is [(10, 8)] 3; Is [(7, 7)] 1; Is [(6, 2)] 0; Is [(1, 0)] 1];
   ent "c.mop.9" ["c_mop_9"] [Is [(15, 11)] 0xc; Is [(10, 8)] 4; Is [(7, 7)] 1; Is [(6, 2)] 0; Is [(1, 0)] 1];
   ent "c.mop.11" ["c_mop_11"] [Is [(15, 11)] 0xc; Is [(10, 8)] 5; Is [(7, 7)] 1; Is [(6, 2)] 0; Is [(1, 0)] 1];
   ent "c.mop.13" ["c_mop_13"] [Is [(15, 11)] 0xc; Is [(10, 8)] 6; Is [(7, 7)] 1; Is [(6, 2)] 0; Is [(1, 0)] 1];
   ent "c.mop.15" ["c_mop_15"] [Is [(15, 11)] 0xc; Is [(10, 8)] 7; Is [(7, 7)] 1; Is [(6, 2)] 0; Is [(1, 0)] 1]].

(** Zihintntl, compressed. *)
Definition m_CZihintntl : list entry := [
   ent "c.ntl.p1" ["c_ntl_p1"] [Is [(15, 12)] 9; Is [(11, 7)] 0; Is [(6, 2)] 2; Is [(1, 0)] 2];
   ent "c.ntl.pall" ["c_ntl_pall"] [Is [(15, 12)] 9; Is [(11, 7)] 0; Is [(6, 2)] 3; Is [(1, 0)] 2];
   ent "c.ntl.s1" ["c_ntl_s1"] [Is [(15, 12)] 9; Is [(11, 7)] 0; Is [(6, 2)] 4; Is [(1, 0)] 2];
   ent "c.ntl.all" ["c_ntl_all"] [Is [(15, 12)] 9; Is [(11, 7)] 0; Is [(6, 2)] 5; Is [(1, 0)] 2]].

(** V. *)
Definition m_V : list entry := [
   ent "vsetvli" ["vsetvli_xn"; "vsetvli_nz"; "vsetvli_zz"] [Is [(31, 31)] 0; Is [(14, 12)] 7; Is [(6, 0)] 0x57];
   ent "vsetivli" ["vsetivli"] [Is [(31, 30)] 3; Is [(14, 12)] 7; Is [(6, 0)] 0x57];
   ent "vsetvl" ["vsetvl_xn"; "vsetvl_nz"; "vsetvl_zz"] [Is [(31, 25)] 0x40; Is [(14, 12)] 7; Is [(6, 0)] 0x57];
   ent "vle8.v" ["vle8"; "vle8_vm1"] [Is [(31, 29)] 0; Is [(28, 28)] 0; Is [(27, 26)] 0; Is [(24, 20)] 0; Is [(14, 12)] 0; Is [(6, 0)] 7];
   ent "vse8.v" ["vse8"] [Is [(31, 29)] 0; Is [(28, 28)] 0; Is [(27, 26)] 0; Is [(24, 20)] 0; Is [(14, 12)] 0; Is [(6, 0)] 0x27];
   ent "vle8ff.v" ["vle8ff"] [Is [(31, 29)] 0; Is [(28, 28)] 0; Is [(27, 26)] 0; Is [(24, 20)] 0x10; Is [(14, 12)] 0; Is [(6, 0)] 7];
   ent "vlseg<nf>e8ff.v" [] [Isnt [(31, 29)] 0; Is [(28, 28)] 0; Is [(27, 26)] 0; Is [(24, 20)] 0x10; Is [(14, 12)] 0; Is [(6, 0)] 7];
   ent "vlse8.v" ["vlse8"] [Is [(31, 29)] 0; Is [(28, 28)] 0; Is [(27, 26)] 2; Is [(14, 12)] 0; Is [(6, 0)] 7];
   ent "vsse8.v" ["vsse8"] [Is [(31, 29)] 0; Is [(28, 28)] 0; Is [(27, 26)] 2; Is [(14, 12)] 0; Is [(6, 0)] 0x27];
   ent "vluxei8.v" ["vluxei8"] [Is [(31, 29)] 0; Is [(28, 28)] 0; Is [(27, 26)] 1; Is [(14, 12)] 0; Is [(6, 0)] 7];
   ent "vsuxei8.v" ["vsuxei8"] [Is [(31, 29)] 0; Is [(28, 28)] 0; Is [(27, 26)] 1; Is [(14, 12)] 0; Is [(6, 0)] 0x27];
   ent "vloxei8.v" ["vloxei8"] [Is [(31, 29)] 0; Is [(28, 28)] 0; Is [(27, 26)] 3; Is [(14, 12)] 0; Is [(6, 0)] 7];
   ent "vsoxei8.v" ["vsoxei8"] [Is [(31, 29)] 0; Is [(28, 28)] 0; Is [(27, 26)] 3; Is [(14, 12)] 0; Is [(6, 0)] 0x27];
   ent "vlseg<nf>e8.v" ["vlsege8"] [Isnt [(31, 29)] 0; Is [(28, 28)] 0; Is [(27, 26)] 0; Is [(24, 20)] 0; Is [(14, 12)] 0; Is [(6, 0)] 7];
   ent "vsseg<nf>e8.v" ["vssege8"] [Isnt [(31, 29)] 0; Is [(28, 28)] 0; Is [(27, 26)] 0; Is [(24, 20)] 0; Is [(14, 12)] 0; Is [(6, 0)] 0x27];
   ent "vlsseg<nf>e8.v" ["vlssege8"] [Isnt [(31, 29)] 0; Is [(28, 28)] 0; Is [(27, 26)] 2; Is [(14, 12)] 0; Is [(6, 0)] 7];
   ent "vssseg<nf>e8.v" ["vsssege8"] [Isnt [(31, 29)] 0; Is [(28, 28)] 0; Is [(27, 26)] 2; Is [(14, 12)] 0; Is [(6, 0)] 0x27];
   ent "vluxseg<nf>ei8.v" ["vluxsegei8"] [Isnt [(31, 29)] 0; Is [(28, 28)] 0; Is [(27, 26)] 1; Is [(14, 12)] 0; Is [(6, 0)] 7];
   ent "vsuxseg<nf>ei8.v" ["vsuxsegei8"] [Isnt [(31, 29)] 0; Is [(28, 28)] 0; Is [(27, 26)] 1; Is [(14, 12)] 0; Is [(6, 0)] 0x27];
   ent "vloxseg<nf>ei8.v" ["vloxsegei8"] [Isnt [(31, 29)] 0; Is [(28, 28)] 0; Is [(27, 26)] 3; Is [(14, 12)] 0; Is [(6, 0)] 7];
   ent "vsoxseg<nf>ei8.v" ["vsoxsegei8"] [Isnt [(31, 29)] 0; Is [(28, 28)] 0; Is [(27, 26)] 3; Is [(14, 12)] 0; Is [(6, 0)] 0x27];
   ent "vl1re8.v" ["vl1re8"] [Is [(31, 29)] 0; Is [(28, 28)] 0; Is [(27, 26)] 0; Is [(25, 25)] 1; Is [(24, 20)] 8; Is [(14, 12)] 0; Is [(6, 0)] 7];
   ent "vl2re8.v" ["vl2re8"] [Is [(31, 29)] 1; Is [(28, 28)] 0; Is [(27, 26)] 0; Is [(25, 25)] 1; Is [(24, 20)] 8; Is [(14, 12)] 0; Is [(6, 0)] 7];
   ent "vl4re8.v" ["vl4re8"] [Is [(31, 29)] 3; Is [(28, 28)] 0; Is [(27, 26)] 0; Is [(25, 25)] 1; Is [(24, 20)] 8; Is [(14, 12)] 0; Is [(6, 0)] 7];
   ent "vl8re8.v" ["vl8re8"] [Is [(31, 29)] 7; Is [(28, 28)] 0; Is [(27, 26)] 0; Is [(25, 25)] 1; Is [(24, 20)] 8; Is [(14, 12)] 0; Is [(6, 0)] 7];
   ent "vle16.v" ["vle16"; "vle16_vm1"] [Is [(31, 29)] 0; Is [(28, 28)] 0; Is [(27, 26)] 0; Is [(24, 20)] 0; Is [(14, 12)] 5; Is [(6, 0)] 7];
   ent "vse16.v" ["vse16"] [Is [(31, 29)] 0; Is [(28, 28)] 0; Is [(27, 26)] 0; Is [(24, 20)] 0; Is [(14, 12)] 5; Is [(6, 0)] 0x27];
   ent "vle16ff.v" ["vle16ff"] [Is [(31, 29)] 0; Is [(28, 28)] 0; Is [(27, 26)] 0; Is [(24, 20)] 0x10; Is [(14, 12)] 5; Is [(6, 0)] 7];
   ent "vlseg<nf>e16ff.v" [] [Isnt [(31, 29)] 0; Is [(28, 28)] 0; Is [(27, 26)] 0; Is [(24, 20)] 0x10; Is [(14, 12)] 5; Is [(6, 0)] 7];
   ent "vlse16.v" ["vlse16"] [Is [(31, 29)] 0; Is [(28, 28)] 0; Is [(27, 26)] 2; Is [(14, 12)] 5; Is [(6, 0)] 7];
   ent "vsse16.v" ["vsse16"] [Is [(31, 29)] 0; Is [(28, 28)] 0; Is [(27, 26)] 2; Is [(14, 12)] 5; Is [(6, 0)] 0x27];
   ent "vluxei16.v" ["vluxei16"] [Is [(31, 29)] 0; Is [(28, 28)] 0; Is [(27, 26)] 1; Is [(14, 12)] 5; Is [(6, 0)] 7];
   ent "vsuxei16.v" ["vsuxei16"] [Is [(31, 29)] 0; Is [(28, 28)] 0; Is [(27, 26)] 1; Is [(14, 12)] 5; Is [(6, 0)] 0x27];
   ent "vloxei16.v" ["vloxei16"] [Is [(31, 29)] 0; Is [(28, 28)] 0; Is [(27, 26)] 3; Is [(14, 12)] 5; Is [(6, 0)] 7];
   ent "vsoxei16.v" ["vsoxei16"] [Is [(31, 29)] 0; Is [(28, 28)] 0; Is [(27, 26)] 3; Is [(14, 12)] 5; Is [(6, 0)] 0x27];
   ent "vlseg<nf>e16.v" ["vlsege16"] [Isnt [(31, 29)] 0; Is [(28, 28)] 0; Is [(27, 26)] 0; Is [(24, 20)] 0; Is [(14, 12)] 5; Is [(6, 0)] 7];
   ent "vsseg<nf>e16.v" ["vssege16"] [Isnt [(31, 29)] 0; Is [(28, 28)] 0; Is [(27, 26)] 0; Is [(24, 20)] 0; Is [(14, 12)] 5; Is [(6, 0)] 0x27];
   ent "vlsseg<nf>e16.v" ["vlssege16"] [Isnt [(31, 29)] 0; Is [(28, 28)] 0; Is [(27, 26)] 2; Is [(14, 12)] 5; Is [(6, 0)] 7];
   ent "vssseg<nf>e16.v" ["vsssege16"] [Isnt [(31, 29)] 0; Is [(28, 28)] 0; Is [(27, 26)] 2; Is [(14, 12)] 5; Is [(6, 0)] 0x27];
   ent "vluxseg<nf>ei16.v" ["vluxsegei16"] [Isnt [(31, 29)] 0; Is [(28, 28)] 0; Is [(27, 26)] 1; Is [(14, 12)] 5; Is [(6, 0)] 7];
   ent "vsuxseg<nf>ei16.v" ["vsuxsegei16"] [Isnt [(31, 29)] 0; Is [(28, 28)] 0; Is [(27, 26)] 1; Is [(14, 12)] 5; Is [(6, 0)] 0x27];
   ent "vloxseg<nf>ei16.v" ["vloxsegei16"] [Isnt [(31, 29)] 0; Is [(28, 28)] 0; Is [(27, 26)] 3; Is [(14, 12)] 5; Is [(6, 0)] 7];
   ent "vsoxseg<nf>ei16.v" ["vsoxsegei16"] [Isnt [(31, 29)] 0; Is [(28, 28)] 0; Is [(27, 26)] 3; Is [(14, 12)] 5; Is [(6, 0)] 0x27];
   ent "vl1re16.v" ["vl1re16"] [Is [(31, 29)] 0; Is [(28, 28)] 0; Is [(27, 26)] 0; Is [(25, 25)] 1; Is [(24, 20)] 8; Is [(14, 12)] 5; Is [(6, 0)] 7];
   ent "vl2re16.v" ["vl2re16"] [Is [(31, 29)] 1; Is [(28, 28)] 0; Is [(27, 26)] 0; Is [(25, 25)] 1; Is [(24, 20)] 8; Is [(14, 12)] 5; Is [(6, 0)] 7];
   ent "vl4re16.v" ["vl4re16"] [Is [(31, 29)] 3; Is [(28, 28)] 0; Is [(27, 26)] 0; Is [(25, 25)] 1; Is [(24, 20)] 8; Is [(14, 12)] 5; Is [(6, 0)] 7];
   ent "vl8re16.v" ["vl8re16"] [Is [(31, 29)] 7; Is [(28, 28)] 0; Is [(27, 26)] 0; Is [(25, 25)] 1; Is [(24, 20)] 8; Is [(14, 12)] 5; Is [(6, 0)] 7];
   ent "vle32.v" ["vle32"; "vle32_vm1"] [Is [(31, 29)] 0; Is [(28, 28)] 0; Is [(27, 26)] 0; Is [(24, 20)] 0; Is [(14, 12)] 6; Is [(6, 0)] 7];
   ent "vse32.v" ["vse32"] [Is [(31, 29)] 0; Is [(28, 28)] 0; Is [(27, 26)] 0; Is [(24, 20)] 0; Is [(14, 12)] 6; Is [(6, 0)] 0x27];
   ent "vle32ff.v" ["vle32ff"] [Is [(31, 29)] 0; Is [(28, 28)] 0; Is [(27, 26)] 0; Is [(24, 20)] 0x10; Is [(14, 12)] 6; Is [(6, 0)] 7];
   ent "vlseg<nf>e32ff.v" [] [Isnt [(31, 29)] 0; Is [(28, 28)] 0; Is [(27, 26)] 0; Is [(24, 20)] 0x10; Is [(14, 12)] 6; Is [(6, 0)] 7];
   ent "vlse32.v" ["vlse32"] [Is [(31, 29)] 0; Is [(28, 28)] 0; Is [(27, 26)] 2; Is [(14, 12)] 6; Is [(6, 0)] 7];
   ent "vsse32.v" ["vsse32"] [Is [(31, 29)] 0; Is [(28, 28)] 0; Is [(27, 26)] 2; Is [(14, 12)] 6; Is [(6, 0)] 0x27];
   ent "vluxei32.v" ["vluxei32"] [Is [(31, 29)] 0; Is [(28, 28)] 0; Is [(27, 26)] 1; Is [(14, 12)] 6; Is [(6, 0)] 7];
   ent "vsuxei32.v" ["vsuxei32"] [Is [(31, 29)] 0; Is [(28, 28)] 0; Is [(27, 26)] 1; Is [(14, 12)] 6; Is [(6, 0)] 0x27];
   ent "vloxei32.v" ["vloxei32"] [Is [(31, 29)] 0; Is [(28, 28)] 0; Is [(27, 26)] 3; Is [(14, 12)] 6; Is [(6, 0)] 7];
   ent "vsoxei32.v" ["vsoxei32"] [Is [(31, 29)] 0; Is [(28, 28)] 0; Is [(27, 26)] 3; Is [(14, 12)] 6; Is [(6, 0)] 0x27];
   ent "vlseg<nf>e32.v" ["vlsege32"] [Isnt [(31, 29)] 0; Is [(28, 28)] 0; Is [(27, 26)] 0; Is [(24, 20)] 0; Is [(14, 12)] 6; Is [(6, 0)] 7];
   ent "vsseg<nf>e32.v" ["vssege32"] [Isnt [(31, 29)] 0; Is [(28, 28)] 0; Is [(27, 26)] 0; Is [(24, 20)] 0; Is [(14, 12)] 6; Is [(6, 0)] 0x27];
   ent "vlsseg<nf>e32.v" ["vlssege32"] [Isnt [(31, 29)] 0; Is [(28, 28)] 0; Is [(27, 26)] 2; Is [(14, 12)] 6; Is [(6, 0)] 7];
   ent "vssseg<nf>e32.v" ["vsssege32"] [Isnt [(31, 29)] 0; Is [(28, 28)] 0; Is [(27, 26)] 2; Is [(14, 12)] 6; Is [(6, 0)] 0x27];
   ent "vluxseg<nf>ei32.v" ["vluxsegei32"] [Isnt [(31, 29)] 0; Is [(28, 28)] 0; Is [(27, 26)] 1; Is [(14, 12)] 6; Is [(6, 0)] 7];
   ent "vsuxseg<nf>ei32.v" ["vsuxsegei32"] [Isnt [(31, 29)] 0; Is [(28, 28)] 0; Is [(27, 26)] 1; Is [(14, 12)] 6; Is [(6, 0)] 0x27];
   ent "vloxseg<nf>ei32.v" ["vloxsegei32"] [Isnt [(31, 29)] 0; Is [(28, 28)] 0; Is [(27, 26)] 3; Is [(14, 12)] 6; Is [(6, 0)] 7];
   ent "vsoxseg<nf>ei32.v" ["vsoxsegei32"] [Isnt [(31, 29)] 0; Is [(28, 28)] 0; Is [(27, 26)] 3; Is [(14, 12)] 6; Is [(6, 0)] 0x27];
   ent "vl1re32.v" ["vl1re32"] [Is [(31, 29)] 0; Is [(28, 28)] 0; Is [(27, 26)] 0; Is [(25, 25)] 1; Is [(24, 20)] 8; Is [(14, 12)] 6; Is [(6, 0)] 7];
   ent "vl2re32.v" ["vl2re32"] [Is [(31, 29)] 1; Is [(28, 28)] 0; Is [(27, 26)] 0; Is [(25, 25)] 1; Is [(24, 20)] 8; Is [(14, 12)] 6; Is [(6, 0)] 7];
   ent "vl4re32.v" ["vl4re32"] [Is [(31, 29)] 3; Is [(28, 28)] 0; Is [(27, 26)] 0; Is [(25, 25)] 1; Is [(24, 20)] 8; Is [(14, 12)] 6; Is [(6, 0)] 7];
   ent "vl8re32.v" ["vl8re32"] [Is [(31, 29)] 7; Is [(28, 28)] 0; Is [(27, 26)] 0; Is [(25, 25)] 1; Is [(24, 20)] 8; Is [(14, 12)] 6; Is [(6, 0)] 7];
   ent "vle64.v" ["vle64"; "vle64_vm1"] [Is [(31, 29)] 0; Is [(28, 28)] 0; Is [(27, 26)] 0; Is [(24, 20)] 0; Is [(14, 12)] 7; Is [(6, 0)] 7];
   ent "vse64.v" ["vse64"] [Is [(31, 29)] 0; Is [(28, 28)] 0; Is [(27, 26)] 0; Is [(24, 20)] 0; Is [(14, 12)] 7; Is [(6, 0)] 0x27];
   ent "vle64ff.v" ["vle64ff"] [Is [(31, 29)] 0; Is [(28, 28)] 0; Is [(27, 26)] 0; Is [(24, 20)] 0x10; Is [(14, 12)] 7; Is [(6, 0)] 7];
   ent "vlseg<nf>e64ff.v" [] [Isnt [(31, 29)] 0; Is [(28, 28)] 0; Is [(27, 26)] 0; Is [(24, 20)] 0x10; Is [(14, 12)] 7; Is [(6, 0)] 7];
   ent "vlse64.v" ["vlse64"] [Is [(31, 29)] 0; Is [(28, 28)] 0; Is [(27, 26)] 2; Is [(14, 12)] 7; Is [(6, 0)] 7];
   ent "vsse64.v" ["vsse64"] [Is [(31, 29)] 0; Is [(28, 28)] 0; Is [(27, 26)] 2; Is [(14, 12)] 7; Is [(6, 0)] 0x27];
   ent "vluxei64.v" ["vluxei64"] [Is [(31, 29)] 0; Is [(28, 28)] 0; Is [(27, 26)] 1; Is [(14, 12)] 7; Is [(6, 0)] 7];
   ent "vsuxei64.v" ["vsuxei64"] [Is [(31, 29)] 0; Is [(28, 28)] 0; Is [(27, 26)] 1; Is [(14, 12)] 7; Is [(6, 0)] 0x27];
   ent "vloxei64.v" ["vloxei64"] [Is [(31, 29)] 0; Is [(28, 28)] 0; Is [(27, 26)] 3; Is [(14, 12)] 7; Is [(6, 0)] 7];
   ent "vsoxei64.v" ["vsoxei64"] [Is [(31, 29)] 0; Is [(28, 28)] 0; Is [(27, 26)] 3; Is [(14, 12)] 7; Is [(6, 0)] 0x27];
   ent "vlseg<nf>e64.v" ["vlsege64"] [Isnt [(31, 29)] 0; Is [(28, 28)] 0; Is [(27, 26)] 0; Is [(24, 20)] 0; Is [(14, 12)] 7; Is [(6, 0)] 7];
   ent "vsseg<nf>e64.v" ["vssege64"] [Isnt [(31, 29)] 0; Is [(28, 28)] 0; Is [(27, 26)] 0; Is [(24, 20)] 0; Is [(14, 12)] 7; Is [(6, 0)] 0x27];
   ent "vlsseg<nf>e64.v" ["vlssege64"] [Isnt [(31, 29)] 0; Is [(28, 28)] 0; Is [(27, 26)] 2; Is [(14, 12)] 7; Is [(6, 0)] 7];
   ent "vssseg<nf>e64.v" ["vsssege64"] [Isnt [(31, 29)] 0; Is [(28, 28)] 0; Is [(27, 26)] 2; Is [(14, 12)] 7; Is [(6, 0)] 0x27];
   ent "vluxseg<nf>ei64.v" ["vluxsegei64"] [Isnt [(31, 29)] 0; Is [(28, 28)] 0; Is [(27, 26)] 1; Is [(14, 12)] 7; Is [(6, 0)] 7];
   ent "vsuxseg<nf>ei64.v" ["vsuxsegei64"] [Isnt [(31, 29)] 0; Is [(28, 28)] 0; Is [(27, 26)] 1; Is [(14, 12)] 7; Is [(6, 0)] 0x27];
   ent "vloxseg<nf>ei64.v" ["vloxsegei64"] [Isnt [(31, 29)] 0; Is [(28, 28)] 0; Is [(27, 26)] 3; Is [(14, 12)] 7; Is [(6, 0)] 7];
   ent "vsoxseg<nf>ei64.v" ["vsoxsegei64"] [Isnt [(31, 29)] 0; Is [(28, 28)] 0; Is [(27, 26)] 3; Is [(14, 12)] 7; Is [(6, 0)] 0x27];
   ent "vl1re64.v" ["vl1re64"] [Is [(31, 29)] 0; Is [(28, 28)] 0; Is [(27, 26)] 0; Is [(25, 25)] 1; Is [(24, 20)] 8; Is [(14, 12)] 7; Is [(6, 0)] 7];
   ent "vl2re64.v" ["vl2re64"] [Is [(31, 29)] 1; Is [(28, 28)] 0; Is [(27, 26)] 0; Is [(25, 25)] 1; Is [(24, 20)] 8; Is [(14, 12)] 7; Is [(6, 0)] 7];
   ent "vl4re64.v" ["vl4re64"] [Is [(31, 29)] 3; Is [(28, 28)] 0; Is [(27, 26)] 0; Is [(25, 25)] 1; Is [(24, 20)] 8; Is [(14, 12)] 7; Is [(6, 0)] 7];
   ent "vl8re64.v" ["vl8re64"] [Is [(31, 29)] 7; Is [(28, 28)] 0; Is [(27, 26)] 0; Is [(25, 25)] 1; Is [(24, 20)] 8; Is [(14, 12)] 7; Is [(6, 0)] 7];
   ent "vs1r.v" ["vs1re8"] [Is [(31, 29)] 0; Is [(28, 28)] 0; Is [(27, 26)] 0; Is [(25, 25)] 1; Is [(24, 20)] 8; Is [(14, 12)] 0; Is [(6, 0)] 0x27];
   ent "vs2r.v" ["vs2re8"] [Is [(31, 29)] 1; Is [(28, 28)] 0; Is [(27, 26)] 0; Is [(25, 25)] 1; Is [(24, 20)] 8; Is [(14, 12)] 0; Is [(6, 0)] 0x27];
   ent "vs4r.v" ["vs4re8"] [Is [(31, 29)] 3; Is [(28, 28)] 0; Is [(27, 26)] 0; Is [(25, 25)] 1; Is [(24, 20)] 8; Is [(14, 12)] 0; Is [(6, 0)] 0x27];
   ent "vs8r.v" ["vs8re8"] [Is [(31, 29)] 7; Is [(28, 28)] 0; Is [(27, 26)] 0; Is [(25, 25)] 1; Is [(24, 20)] 8; Is [(14, 12)] 0; Is [(6, 0)] 0x27];
   ent "vlm.v" ["vlm"] [Is [(31, 29)] 0; Is [(28, 28)] 0; Is [(27, 26)] 0; Is [(25, 25)] 1; Is [(24, 20)] 0xb; Is [(14, 12)] 0; Is [(6, 0)] 7];
   ent "vsm.v" ["vsm"] [Is [(31, 29)] 0; Is [(28, 28)] 0; Is [(27, 26)] 0; Is [(25, 25)] 1; Is [(24, 20)] 0xb; Is [(14, 12)] 0; Is [(6, 0)] 0x27];
   ent "vadd.vv" ["vadd_vv"] [Is [(31, 26)] 0; Is [(14, 12)] 0; Is [(6, 0)] 0x57];
   ent "vadd.vx" ["vadd_vx"] [Is [(31, 26)] 0; Is [(14, 12)] 4; Is [(6, 0)] 0x57];
   ent "vadd.vi" ["vadd_vi"] [Is [(31, 26)] 0; Is [(14, 12)] 3; Is [(6, 0)] 0x57];
   ent "vsub.vv" ["vsub_vv"] [Is [(31, 26)] 2; Is [(14, 12)] 0; Is [(6, 0)] 0x57];
   ent "vsub.vx" ["vsub_vx"] [Is [(31, 26)] 2; Is [(14, 12)] 4; Is [(6, 0)] 0x57];
   ent "vrsub.vx" ["vrsub_vx"] [Is [(31, 26)] 3; Is [(14, 12)] 4; Is [(6, 0)] 0x57];
   ent "vrsub.vi" ["vrsub_vi"] [Is [(31, 26)] 3; Is [(14, 12)] 3; Is [(6, 0)] 0x57];
   ent "vminu.vv" ["vminu_vv"] [Is [(31, 26)] 4; Is [(14, 12)] 0; Is [(6, 0)] 0x57];
   ent "vminu.vx" ["vminu_vx"] [Is [(31, 26)] 4; Is [(14, 12)] 4; Is [(6, 0)] 0x57];
   ent "vmin.vv" ["vmin_vv"] [Is [(31, 26)] 5; Is [(14, 12)] 0; Is [(6, 0)] 0x57];
   ent "vmin.vx" ["vmin_vx"] [Is [(31, 26)] 5; Is [(14, 12)] 4; Is [(6, 0)] 0x57];
   ent "vmaxu.vv" ["vmaxu_vv"] [Is [(31, 26)] 6; Is [(14, 12)] 0; Is [(6, 0)] 0x57];
   ent "vmaxu.vx" ["vmaxu_vx"] [Is [(31, 26)] 6; Is [(14, 12)] 4; Is [(6, 0)] 0x57];
   ent "vmax.vv" ["vmax_vv"] [Is [(31, 26)] 7; Is [(14, 12)] 0; Is [(6, 0)] 0x57];
   ent "vmax.vx" ["vmax_vx"] [Is [(31, 26)] 7; Is [(14, 12)] 4; Is [(6, 0)] 0x57];
   ent "vand.vv" ["vand_vv"] [Is [(31, 26)] 9; Is [(14, 12)] 0; Is [(6, 0)] 0x57];
   ent "vand.vx" ["vand_vx"] [Is [(31, 26)] 9; Is [(14, 12)] 4; Is [(6, 0)] 0x57];
   ent "vand.vi" ["vand_vi"] [Is [(31, 26)] 9; Is [(14, 12)] 3; Is [(6, 0)] 0x57];
   ent "vor.vv" ["vor_vv"] [Is [(31, 26)] 0xa; Is [(14, 12)] 0; Is [(6, 0)] 0x57];
   ent "vor.vx" ["vor_vx"] [Is [(31, 26)] 0xa; Is [(14, 12)] 4; Is [(6, 0)] 0x57];
   ent "vor.vi" ["vor_vi"] [Is [(31, 26)] 0xa; Is [(14, 12)] 3; Is [(6, 0)] 0x57];
   ent "vxor.vv" ["vxor_vv"] [Is [(31, 26)] 0xb; Is [(14, 12)] 0; Is [(6, 0)] 0x57];
   ent "vxor.vx" ["vxor_vx"] [Is [(31, 26)] 0xb; Is [(14, 12)] 4; Is [(6, 0)] 0x57];
   ent "vxor.vi" ["vxor_vi"] [Is [(31, 26)] 0xb; Is [(14, 12)] 3; Is [(6, 0)] 0x57];
   ent "vrgather.vv" ["vrgather_vv"] [Is [(31, 26)] 0xc; Is [(14, 12)] 0; Is [(6, 0)] 0x57];
   ent "vrgather.vx" ["vrgather_vx"] [Is [(31, 26)] 0xc; Is [(14, 12)] 4; Is [(6, 0)] 0x57];
   ent "vrgather.vi" ["vrgather_vi"] [Is [(31, 26)] 0xc; Is [(14, 12)] 3; Is [(6, 0)] 0x57];
   ent "vslideup.vx" ["vslideup_vx"] [Is [(31, 26)] 0xe; Is [(14, 12)] 4; Is [(6, 0)] 0x57];
   ent "vslideup.vi" ["vslideup_vi"] [Is [(31, 26)] 0xe; Is [(14, 12)] 3; Is [(6, 0)] 0x57];
   ent "vrgatherei16.vv" ["vrgatherei16_vv"] [Is [(31, 26)] 0xe; Is [(14, 12)] 0; Is [(6, 0)] 0x57];
   ent "vslidedown.vx" ["vslidedown_vx"] [Is [(31, 26)] 0xf; Is [(14, 12)] 4; Is [(6, 0)] 0x57];
   ent "vslidedown.vi" ["vslidedown_vi"] [Is [(31, 26)] 0xf; Is [(14, 12)] 3; Is [(6, 0)] 0x57];
   ent "vmadc.vv" ["vmadc_vv"] [Is [(31, 26)] 0x11; Is [(14, 12)] 0; Is [(6, 0)] 0x57];
   ent "vmadc.vx" ["vmadc_vx"] [Is [(31, 26)] 0x11; Is [(14, 12)] 4; Is [(6, 0)] 0x57];
   ent "vmadc.vi" ["vmadc_vi"] [Is [(31, 26)] 0x11; Is [(14, 12)] 3; Is [(6, 0)] 0x57];
   ent "vmsbc.vv" ["vmsbc_vv"] [Is [(31, 26)] 0x13; Is [(14, 12)] 0; Is [(6, 0)] 0x57];
   ent "vmsbc.vx" ["vmsbc_vx"] [Is [(31, 26)] 0x13; Is [(14, 12)] 4; Is [(6, 0)] 0x57];
   ent "vmseq.vv" ["vmseq_vv"] [Is [(31, 26)] 0x18; Is [(14, 12)] 0; Is [(6, 0)] 0x57];
   ent "vmseq.vx" ["vmseq_vx"] [Is [(31, 26)] 0x18; Is [(14, 12)] 4; Is [(6, 0)] 0x57];
   ent "vmseq.vi" ["vmseq_vi"] [Is [(31, 26)] 0x18; Is [(14, 12)] 3; Is [(6, 0)] 0x57];
   ent "vmsne.vv" ["vmsne_vv"] [Is [(31, 26)] 0x19; Is [(14, 12)] 0; Is [(6, 0)] 0x57];
   ent "vmsne.vx" ["vmsne_vx"] [Is [(31, 26)] 0x19; Is [(14, 12)] 4; Is [(6, 0)] 0x57];
   ent "vmsne.vi" ["vmsne_vi"] [Is [(31, 26)] 0x19; Is [(14, 12)] 3; Is [(6, 0)] 0x57];
   ent "vmsltu.vv" ["vmsltu_vv"] [Is [(31, 26)] 0x1a; Is [(14, 12)] 0; Is [(6, 0)] 0x57];
   ent "vmsltu.vx" ["vmsltu_vx"] [Is [(31, 26)] 0x1a; Is [(14, 12)] 4; Is [(6, 0)] 0x57];
   ent "vmslt.vv" ["vmslt_vv"] [Is [(31, 26)] 0x1b; Is [(14, 12)] 0; Is [(6, 0)] 0x57];
   ent "vmslt.vx" ["vmslt_vx"] [Is [(31, 26)] 0x1b; Is [(14, 12)] 4; Is [(6, 0)] 0x57];
   ent "vmsleu.vv" ["vmsleu_vv"] [Is [(31, 26)] 0x1c; Is [(14, 12)] 0; Is [(6, 0)] 0x57];
   ent "vmsleu.vx" ["vmsleu_vx"] [Is [(31, 26)] 0x1c; Is [(14, 12)] 4; Is [(6, 0)] 0x57];
   ent "vmsleu.vi" ["vmsleu_vi"] [Is [(31, 26)] 0x1c; Is [(14, 12)] 3; Is [(6, 0)] 0x57];
   ent "vmsle.vv" ["vmsle_vv"] [Is [(31, 26)] 0x1d; Is [(14, 12)] 0; Is [(6, 0)] 0x57];
   ent "vmsle.vx" ["vmsle_vx"] [Is [(31, 26)] 0x1d; Is [(14, 12)] 4; Is [(6, 0)] 0x57];
   ent "vmsle.vi" ["vmsle_vi"] [Is [(31, 26)] 0x1d; Is [(14, 12)] 3; Is [(6, 0)] 0x57];
   ent "vmsgtu.vx" ["vmsgtu_vx"] [Is [(31, 26)] 0x1e; Is [(14, 12)] 4; Is [(6, 0)] 0x57];
   ent "vmsgtu.vi" ["vmsgtu_vi"] [Is [(31, 26)] 0x1e; Is [(14, 12)] 3; Is [(6, 0)] 0x57];
   ent "vmsgt.vx" ["vmsgt_vx"] [Is [(31, 26)] 0x1f; Is [(14, 12)] 4; Is [(6, 0)] 0x57];
   ent "vmsgt.vi" ["vmsgt_vi"] [Is [(31, 26)] 0x1f; Is [(14, 12)] 3; Is [(6, 0)] 0x57];
   ent "vsaddu.vv" ["vsaddu_vv"] [Is [(31, 26)] 0x20; Is [(14, 12)] 0; Is [(6, 0)] 0x57];
   ent "vsaddu.vx" ["vsaddu_vx"] [Is [(31, 26)] 0x20; Is [(14, 12)] 4; Is [(6, 0)] 0x57];
   ent "vsaddu.vi" ["vsaddu_vi"] [Is [(31, 26)] 0x20; Is [(14, 12)] 3; Is [(6, 0)] 0x57];
   ent "vsadd.vv" ["vsadd_vv"] [Is [(31, 26)] 0x21; Is [(14, 12)] 0; Is [(6, 0)] 0x57];
   ent "vsadd.vx" ["vsadd_vx"] [Is [(31, 26)] 0x21; Is [(14, 12)] 4; Is [(6, 0)] 0x57];
   ent "vsadd.vi" ["vsadd_vi"] [Is [(31, 26)] 0x21; Is [(14, 12)] 3; Is [(6, 0)] 0x57];
   ent "vssubu.vv" ["vssubu_vv"] [Is [(31, 26)] 0x22; Is [(14, 12)] 0; Is [(6, 0)] 0x57];
   ent "vssubu.vx" ["vssubu_vx"] [Is [(31, 26)] 0x22; Is [(14, 12)] 4; Is [(6, 0)] 0x57];
   ent "vssub.vv" ["vssub_vv"] [Is [(31, 26)] 0x23; Is [(14, 12)] 0; Is [(6, 0)] 0x57];
   ent "vssub.vx" ["vssub_vx"] [Is [(31, 26)] 0x23; Is [(14, 12)] 4; Is [(6, 0)] 0x57];
   ent "vsll.vv" ["vsll_vv"] [Is [(31, 26)] 0x25; Is [(14, 12)] 0; Is [(6, 0)] 0x57];
   ent "vsll.vx" ["vsll_vx"] [Is [(31, 26)] 0x25; Is [(14, 12)] 4; Is [(6, 0)] 0x57];
   ent "vsll.vi" ["vsll_vi"] [Is [(31, 26)] 0x25; Is [(14, 12)] 3; Is [(6, 0)] 0x57];
   ent "vsmul.vv" ["vsmul_vv"] [Is [(31, 26)] 0x27; Is [(14, 12)] 0; Is [(6, 0)] 0x57];
   ent "vsmul.vx" ["vsmul_vx"] [Is [(31, 26)] 0x27; Is [(14, 12)] 4; Is [(6, 0)] 0x57];
   ent "vsrl.vv" ["vsrl_vv"] [Is [(31, 26)] 0x28; Is [(14, 12)] 0; Is [(6, 0)] 0x57];
   ent "vsrl.vx" ["vsrl_vx"] [Is [(31, 26)] 0x28; Is [(14, 12)] 4; Is [(6, 0)] 0x57];
   ent "vsrl.vi" ["vsrl_vi"] [Is [(31, 26)] 0x28; Is [(14, 12)] 3; Is [(6, 0)] 0x57];
   ent "vsra.vv" ["vsra_vv"] [Is [(31, 26)] 0x29; Is [(14, 12)] 0; Is [(6, 0)] 0x57];
   ent "vsra.vx" ["vsra_vx"] [Is [(31, 26)] 0x29; Is [(14, 12)] 4; Is [(6, 0)] 0x57];
   ent "vsra.vi" ["vsra_vi"] [Is [(31, 26)] 0x29; Is [(14, 12)] 3; Is [(6, 0)] 0x57];
   ent "vssrl.vv" ["vssrl_vv"] [Is [(31, 26)] 0x2a; Is [(14, 12)] 0; Is [(6, 0)] 0x57];
   ent "vssrl.vx" ["vssrl_vx"] [Is [(31, 26)] 0x2a; Is [(14, 12)] 4; Is [(6, 0)] 0x57];
   ent "vssrl.vi" ["vssrl_vi"] [Is [(31, 26)] 0x2a; Is [(14, 12)] 3; Is [(6, 0)] 0x57];
   ent "vssra.vv" ["vssra_vv"] [Is [(31, 26)] 0x2b; Is [(14, 12)] 0; Is [(6, 0)] 0x57];
   ent "vssra.vx" ["vssra_vx"] [Is [(31, 26)] 0x2b; Is [(14, 12)] 4; Is [(6, 0)] 0x57];
   ent "vssra.vi" ["vssra_vi"] [Is [(31, 26)] 0x2b; Is [(14, 12)] 3; Is [(6, 0)] 0x57];
   ent "vnsrl.wv" ["vnsrl_vv"] [Is [(31, 26)] 0x2c; Is [(14, 12)] 0; Is [(6, 0)] 0x57];
   ent "vnsrl.wx" ["vnsrl_vx"] [Is [(31, 26)] 0x2c; Is [(14, 12)] 4; Is [(6, 0)] 0x57];
   ent "vnsrl.wi" ["vnsrl_vi"] [Is [(31, 26)] 0x2c; Is [(14, 12)] 3; Is [(6, 0)] 0x57];
   ent "vnsra.wv" ["vnsra_vv"] [Is [(31, 26)] 0x2d; Is [(14, 12)] 0; Is [(6, 0)] 0x57];
   ent "vnsra.wx" ["vnsra_vx"] [Is [(31, 26)] 0x2d; Is [(14, 12)] 4; Is [(6, 0)] 0x57];
   ent "vnsra.wi" ["vnsra_vi"] [Is [(31, 26)] 0x2d; Is [(14, 12)] 3; Is [(6, 0)] 0x57];
   ent "vnclipu.wv" ["vnclipu_vv"] [Is [(31, 26)] 0x2e; Is [(14, 12)] 0; Is [(6, 0)] 0x57];
   ent "vnclipu.wx" ["vnclipu_vx"] [Is [(31, 26)] 0x2e; Is [(14, 12)] 4; Is [(6, 0)] 0x57];
   ent "vnclipu.wi" ["vnclipu_vi"] [Is [(31, 26)] 0x2e; Is [(14, 12)] 3; Is [(6, 0)] 0x57];
   ent "vnclip.wv" ["vnclip_vv"] [Is [(31, 26)] 0x2f; Is [(14, 12)] 0; Is [(6, 0)] 0x57];
   ent "vnclip.wx" ["vnclip_vx"] [Is [(31, 26)] 0x2f; Is [(14, 12)] 4; Is [(6, 0)] 0x57];
   ent "vnclip.wi" ["vnclip_vi"] [Is [(31, 26)] 0x2f; Is [(14, 12)] 3; Is [(6, 0)] 0x57];
   ent "vwredsumu.vs" ["vwredsumu_vv"] [Is [(31, 26)] 0x30; Is [(14, 12)] 0; Is [(6, 0)] 0x57];
   ent "vwredsum.vs" ["vwredsum_vv"] [Is [(31, 26)] 0x31; Is [(14, 12)] 0; Is [(6, 0)] 0x57];
   ent "vadc.vvm" ["vadc_vv"] [Is [(31, 26)] 0x10; Is [(25, 25)] 0; Isnt [(11, 7)] 0; Is [(14, 12)] 0; Is [(6, 0)] 0x57];
   ent "vmerge.vvm" ["vmerge_vv"] [Is [(31, 26)] 0x17; Is [(25, 25)] 0; Is [(14, 12)] 0; Is [(6, 0)] 0x57];
   ent "vmv.v.v" ["vmv_vv"] [Is [(31, 26)] 0x17; Is [(25, 25)] 1; Is [(24, 20)] 0; Is [(14, 12)] 0; Is [(6, 0)] 0x57];
   ent "vadc.vxm" ["vadc_vx"] [Is [(31, 26)] 0x10; Is [(25, 25)] 0; Isnt [(11, 7)] 0; Is [(14, 12)] 4; Is [(6, 0)] 0x57];
   ent "vmerge.vxm" ["vmerge_vx"] [Is [(31, 26)] 0x17; Is [(25, 25)] 0; Is [(14, 12)] 4; Is [(6, 0)] 0x57];
   ent "vmv.v.x" ["vmv_vx"] [Is [(31, 26)] 0x17; Is [(25, 25)] 1; Is [(24, 20)] 0; Is [(14, 12)] 4; Is [(6, 0)] 0x57];
   ent "vadc.vim" ["vadc_vi"] [Is [(31, 26)] 0x10; Is [(25, 25)] 0; Isnt [(11, 7)] 0; Is [(14, 12)] 3; Is [(6, 0)] 0x57];
   ent "vmerge.vim" ["vmerge_vi"] [Is [(31, 26)] 0x17; Is [(25, 25)] 0; Is [(14, 12)] 3; Is [(6, 0)] 0x57];
   ent "vmv.v.i" ["vmv_vi"] [Is [(31, 26)] 0x17; Is [(25, 25)] 1; Is [(24, 20)] 0; Is [(14, 12)] 3; Is [(6, 0)] 0x57];
   ent "vsbc.vvm" ["vsbc_vv"] [Is [(31, 26)] 0x12; Is [(25, 25)] 0; Isnt [(11, 7)] 0; Is [(14, 12)] 0; Is [(6, 0)] 0x57];
   ent "vsbc.vxm" ["vsbc_vx"] [Is [(31, 26)] 0x12; Is [(25, 25)] 0; Isnt [(11, 7)] 0; Is [(14, 12)] 4; Is [(6, 0)] 0x57];
   ent "vmv1r.v" ["vmv1r_vi"] [Is [(31, 26)] 0x27; Is [(25, 25)] 1; Is [(19, 15)] 0; Is [(14, 12)] 3; Is [(6, 0)] 0x57];
   ent "vmv2r.v" ["vmv2r_vi"] [Is [(31, 26)] 0x27; Is [(25, 25)] 1; Is [(19, 15)] 1; Is [(14, 12)] 3; Is [(6, 0)] 0x57];
   ent "vmv4r.v" ["vmv4r_vi"] [Is [(31, 26)] 0x27; Is [(25, 25)] 1; Is [(19, 15)] 3; Is [(14, 12)] 3; Is [(6, 0)] 0x57];
   ent "vmv8r.v" ["vmv8r_vi"] [Is [(31, 26)] 0x27; Is [(25, 25)] 1; Is [(19, 15)] 7; Is [(14, 12)] 3; Is [(6, 0)] 0x57];
   ent "vredsum.vs" ["vredsum_vv"] [Is [(31, 26)] 0; Is [(14, 12)] 2; Is [(6, 0)] 0x57];
   ent "vredand.vs" ["vredand_vv"] [Is [(31, 26)] 1; Is [(14, 12)] 2; Is [(6, 0)] 0x57];
   ent "vredor.vs" ["vredor_vv"] [Is [(31, 26)] 2; Is [(14, 12)] 2; Is [(6, 0)] 0x57];
   ent "vredxor.vs" ["vredxor_vv"] [Is [(31, 26)] 3; Is [(14, 12)] 2; Is [(6, 0)] 0x57];
   ent "vredminu.vs" ["vredminu_vv"] [Is [(31, 26)] 4; Is [(14, 12)] 2; Is [(6, 0)] 0x57];
   ent "vredmin.vs" ["vredmin_vv"] [Is [(31, 26)] 5; Is [(14, 12)] 2; Is [(6, 0)] 0x57];
   ent "vredmaxu.vs" ["vredmaxu_vv"] [Is [(31, 26)] 6; Is [(14, 12)] 2; Is [(6, 0)] 0x57];
   ent "vredmax.vs" ["vredmax_vv"] [Is [(31, 26)] 7; Is [(14, 12)] 2; Is [(6, 0)] 0x57];
   ent "vaaddu.vv" ["vaaddu_vv"] [Is [(31, 26)] 8; Is [(14, 12)] 2; Is [(6, 0)] 0x57];
   ent "vaaddu.vx" ["vaaddu_vx"] [Is [(31, 26)] 8; Is [(14, 12)] 6; Is [(6, 0)] 0x57];
   ent "vaadd.vv" ["vaadd_vv"] [Is [(31, 26)] 9; Is [(14, 12)] 2; Is [(6, 0)] 0x57];
   ent "vaadd.vx" ["vaadd_vx"] [Is [(31, 26)] 9; Is [(14, 12)] 6; Is [(6, 0)] 0x57];
   ent "vasubu.vv" ["vasubu_vv"] [Is [(31, 26)] 0xa; Is [(14, 12)] 2; Is [(6, 0)] 0x57];
   ent "vasubu.vx" ["vasubu_vx"] [Is [(31, 26)] 0xa; Is [(14, 12)] 6; Is [(6, 0)] 0x57];
   ent "vasub.vv" ["vasub_vv"] [Is [(31, 26)] 0xb; Is [(14, 12)] 2; Is [(6, 0)] 0x57];
   ent "vasub.vx" ["vasub_vx"] [Is [(31, 26)] 0xb; Is [(14, 12)] 6; Is [(6, 0)] 0x57];
   ent "vslide1up.vx" ["vslide1up_vx"] [Is [(31, 26)] 0xe; Is [(14, 12)] 6; Is [(6, 0)] 0x57];
   ent "vslide1down.vx" ["vslide1down_vx"] [Is [(31, 26)] 0xf; Is [(14, 12)] 6; Is [(6, 0)] 0x57];
   ent "vdivu.vv" ["vdivu_vv"] [Is [(31, 26)] 0x20; Is [(14, 12)] 2; Is [(6, 0)] 0x57];
   ent "vdivu.vx" ["vdivu_vx"] [Is [(31, 26)] 0x20; Is [(14, 12)] 6; Is [(6, 0)] 0x57];
   ent "vdiv.vv" ["vdiv_vv"] [Is [(31, 26)] 0x21; Is [(14, 12)] 2; Is [(6, 0)] 0x57];
   ent "vdiv.vx" ["vdiv_vx"] [Is [(31, 26)] 0x21; Is [(14, 12)] 6; Is [(6, 0)] 0x57];
   ent "vremu.vv" ["vremu_vv"] [Is [(31, 26)] 0x22; Is [(14, 12)] 2; Is [(6, 0)] 0x57];
   ent "vremu.vx" ["vremu_vx"] [Is [(31, 26)] 0x22; Is [(14, 12)] 6; Is [(6, 0)] 0x57];
   ent "vrem.vv" ["vrem_vv"] [Is [(31, 26)] 0x23; Is [(14, 12)] 2; Is [(6, 0)] 0x57];
   ent "vrem.vx" ["vrem_vx"] [Is [(31, 26)] 0x23; Is [(14, 12)] 6; Is [(6, 0)] 0x57];
   ent "vmulhu.vv" ["vmulhu_vv"] [Is [(31, 26)] 0x24; Is [(14, 12)] 2; Is [(6, 0)] 0x57];
   ent "vmulhu.vx" ["vmulhu_vx"] [Is [(31, 26)] 0x24; Is [(14, 12)] 6; Is [(6, 0)] 0x57];
   ent "vmul.vv" ["vmul_vv"] [Is [(31, 26)] 0x25; Is [(14, 12)] 2; Is [(6, 0)] 0x57];
   ent "vmul.vx" ["vmul_vx"] [Is [(31, 26)] 0x25; Is [(14, 12)] 6; Is [(6, 0)] 0x57];
   ent "vmulhsu.vv" ["vmulhsu_vv"] [Is [(31, 26)] 0x26; Is [(14, 12)] 2; Is [(6, 0)] 0x57];
   ent "vmulhsu.vx" ["vmulhsu_vx"] [Is [(31, 26)] 0x26; Is [(14, 12)] 6; Is [(6, 0)] 0x57];
   ent "vmulh.vv" ["vmulh_vv"] [Is [(31, 26)] 0x27; Is [(14, 12)] 2; Is [(6, 0)] 0x57];
   ent "vmulh.vx" ["vmulh_vx"] [Is [(31, 26)] 0x27; Is [(14, 12)] 6; Is [(6, 0)] 0x57];
   ent "vmadd.vv" ["vmadd_vv"] [Is [(31, 26)] 0x29; Is [(14, 12)] 2; Is [(6, 0)] 0x57];
   ent "vmadd.vx" ["vmadd_vx"] [Is [(31, 26)] 0x29; Is [(14, 12)] 6; Is [(6, 0)] 0x57];
   ent "vnmsub.vv" ["vnmsub_vv"] [Is [(31, 26)] 0x2b; Is [(14, 12)] 2; Is [(6, 0)] 0x57];
   ent "vnmsub.vx" ["vnmsub_vx"] [Is [(31, 26)] 0x2b; Is [(14, 12)] 6; Is [(6, 0)] 0x57];
   ent "vmacc.vv" ["vmacc_vv"] [Is [(31, 26)] 0x2d; Is [(14, 12)] 2; Is [(6, 0)] 0x57];
   ent "vmacc.vx" ["vmacc_vx"] [Is [(31, 26)] 0x2d; Is [(14, 12)] 6; Is [(6, 0)] 0x57];
   ent "vnmsac.vv" ["vnmsac_vv"] [Is [(31, 26)] 0x2f; Is [(14, 12)] 2; Is [(6, 0)] 0x57];
   ent "vnmsac.vx" ["vnmsac_vx"] [Is [(31, 26)] 0x2f; Is [(14, 12)] 6; Is [(6, 0)] 0x57];
   ent "vwaddu.vv" ["vwaddu_vv"] [Is [(31, 26)] 0x30; Is [(14, 12)] 2; Is [(6, 0)] 0x57];
   ent "vwaddu.vx" ["vwaddu_vx"] [Is [(31, 26)] 0x30; Is [(14, 12)] 6; Is [(6, 0)] 0x57];
   ent "vwadd.vv" ["vwadd_vv"] [Is [(31, 26)] 0x31; Is [(14, 12)] 2; Is [(6, 0)] 0x57];
   ent "vwadd.vx" ["vwadd_vx"] [Is [(31, 26)] 0x31; Is [(14, 12)] 6; Is [(6, 0)] 0x57];
   ent "vwsubu.vv" ["vwsubu_vv"] [Is [(31, 26)] 0x32; Is [(14, 12)] 2; Is [(6, 0)] 0x57];
   ent "vwsubu.vx" ["vwsubu_vx"] [Is [(31, 26)] 0x32; Is [(14, 12)] 6; Is [(6, 0)] 0x57];
   ent "vwsub.vv" ["vwsub_vv"] [Is [(31, 26)] 0x33; Is [(14, 12)] 2; Is [(6, 0)] 0x57];
   ent "vwsub.vx" ["vwsub_vx"] [Is [(31, 26)] 0x33; Is [(14, 12)] 6; Is [(6, 0)] 0x57];
   ent "vwmulu.vv" ["vwmulu_vv"] [Is [(31, 26)] 0x38; Is [(14, 12)] 2; Is [(6, 0)] 0x57];
   ent "vwmulu.vx" ["vwmulu_vx"] [Is [(31, 26)] 0x38; Is [(14, 12)] 6; Is [(6, 0)] 0x57];
   ent "vwmulsu.vv" ["vwmulsu_vv"] [Is [(31, 26)] 0x3a; Is [(14, 12)] 2; Is [(6, 0)] 0x57];
   ent "vwmulsu.vx" ["vwmulsu_vx"] [Is [(31, 26)] 0x3a; Is [(14, 12)] 6; Is [(6, 0)] 0x57];
   ent "vwmul.vv" ["vwmul_vv"] [Is [(31, 26)] 0x3b; Is [(14, 12)] 2; Is [(6, 0)] 0x57];
   ent "vwmul.vx" ["vwmul_vx"] [Is [(31, 26)] 0x3b; Is [(14, 12)] 6; Is [(6, 0)] 0x57];
   ent "vwmaccu.vv" ["vwmaccu_vv"] [Is [(31, 26)] 0x3c; Is [(14, 12)] 2; Is [(6, 0)] 0x57];
   ent "vwmaccu.vx" ["vwmaccu_vx"] [Is [(31, 26)] 0x3c; Is [(14, 12)] 6; Is [(6, 0)] 0x57];
   ent "vwmacc.vv" ["vwmacc_vv"] [Is [(31, 26)] 0x3d; Is [(14, 12)] 2; Is [(6, 0)] 0x57];
   ent "vwmacc.vx" ["vwmacc_vx"] [Is [(31, 26)] 0x3d; Is [(14, 12)] 6; Is [(6, 0)] 0x57];
   ent "vwmaccus.vx" ["vwmaccus_vx"] [Is [(31, 26)] 0x3e; Is [(14, 12)] 6; Is [(6, 0)] 0x57];
   ent "vwmaccsu.vv" ["vwmaccsu_vv"] [Is [(31, 26)] 0x3f; Is [(14, 12)] 2; Is [(6, 0)] 0x57];
   ent "vwmaccsu.vx" ["vwmaccsu_vx"] [Is [(31, 26)] 0x3f; Is [(14, 12)] 6; Is [(6, 0)] 0x57];
   ent "vwaddu.wv" ["vwaddu_w_vv"] [Is [(31, 26)] 0x34; Is [(14, 12)] 2; Is [(6, 0)] 0x57];
   ent "vwaddu.wx" ["vwaddu_w_vx"] [Is [(31, 26)] 0x34; Is [(14, 12)] 6; Is [(6, 0)] 0x57];
   ent "vwadd.wv" ["vwadd_w_vv"] [Is [(31, 26)] 0x35; Is [(14, 12)] 2; Is [(6, 0)] 0x57];
   ent "vwadd.wx" ["vwadd_w_vx"] [Is [(31, 26)] 0x35; Is [(14, 12)] 6; Is [(6, 0)] 0x57];
   ent "vwsubu.wv" ["vwsubu_w_vv"] [Is [(31, 26)] 0x36; Is [(14, 12)] 2; Is [(6, 0)] 0x57];
   ent "vwsubu.wx" ["vwsubu_w_vx"] [Is [(31, 26)] 0x36; Is [(14, 12)] 6; Is [(6, 0)] 0x57];
   ent "vwsub.wv" ["vwsub_w_vv"] [Is [(31, 26)] 0x37; Is [(14, 12)] 2; Is [(6, 0)] 0x57];
   ent "vwsub.wx" ["vwsub_w_vx"] [Is [(31, 26)] 0x37; Is [(14, 12)] 6; Is [(6, 0)] 0x57];
   ent "vmv.x.s" ["vmv_x_s"] [Is [(31, 26)] 0x10; Is [(25, 25)] 1; Is [(19, 15)] 0; Is [(14, 12)] 2; Is [(6, 0)] 0x57];
   ent "vcpop.m" ["vcpop"] [Is [(31, 26)] 0x10; Is [(19, 15)] 0x10; Is [(14, 12)] 2; Is [(6, 0)] 0x57];
   ent "vfirst.m" ["vfirst"] [Is [(31, 26)] 0x10; Is [(19, 15)] 0x11; Is [(14, 12)] 2; Is [(6, 0)] 0x57];
   ent "vmv.s.x" ["vmv_s_x"] [Is [(31, 26)] 0x10; Is [(25, 25)] 1; Is [(24, 20)] 0; Is [(14, 12)] 6; Is [(6, 0)] 0x57];
   ent "vzext.vf8" ["vzext_vf8"] [Is [(31, 26)] 0x12; Is [(19, 15)] 2; Is [(14, 12)] 2; Is [(6, 0)] 0x57];
   ent "vsext.vf8" ["vsext_vf8"] [Is [(31, 26)] 0x12; Is [(19, 15)] 3; Is [(14, 12)] 2; Is [(6, 0)] 0x57];
   ent "vzext.vf4" ["vzext_vf4"] [Is [(31, 26)] 0x12; Is [(19, 15)] 4; Is [(14, 12)] 2; Is [(6, 0)] 0x57];
   ent "vsext.vf4" ["vsext_vf4"] [Is [(31, 26)] 0x12; Is [(19, 15)] 5; Is [(14, 12)] 2; Is [(6, 0)] 0x57];
   ent "vzext.vf2" ["vzext_vf2"] [Is [(31, 26)] 0x12; Is [(19, 15)] 6; Is [(14, 12)] 2; Is [(6, 0)] 0x57];
   ent "vsext.vf2" ["vsext_vf2"] [Is [(31, 26)] 0x12; Is [(19, 15)] 7; Is [(14, 12)] 2; Is [(6, 0)] 0x57];
   ent "vmsbf.m" ["vmsbf"] [Is [(31, 26)] 0x14; Is [(19, 15)] 1; Is [(14, 12)] 2; Is [(6, 0)] 0x57];
   ent "vmsof.m" ["vmsof"] [Is [(31, 26)] 0x14; Is [(19, 15)] 2; Is [(14, 12)] 2; Is [(6, 0)] 0x57];
   ent "vmsif.m" ["vmsif"] [Is [(31, 26)] 0x14; Is [(19, 15)] 3; Is [(14, 12)] 2; Is [(6, 0)] 0x57];
   ent "viota.m" ["viota"] [Is [(31, 26)] 0x14; Is [(19, 15)] 0x10; Is [(14, 12)] 2; Is [(6, 0)] 0x57];
   ent "vid.v" ["vid"] [Is [(31, 26)] 0x14; Is [(24, 20)] 0; Is [(19, 15)] 0x11; Is [(14, 12)] 2; Is [(6, 0)] 0x57];
   ent "vcompress.vm" ["vcompress_vv"] [Is [(31, 26)] 0x17; Is [(25, 25)] 1; Is [(14, 12)] 2; Is [(6, 0)] 0x57];
   ent "vmandn.mm" ["vmandnot_vv"] [Is [(31, 26)] 0x18; Is [(25, 25)] 1; Is [(14, 12)] 2; Is [(6, 0)] 0x57];
   ent "vmand.mm" ["vmand_vv"] [Is [(31, 26)] 0x19; Is [(25, 25)] 1; Is [(14, 12)] 2; Is [(6, 0)] 0x57];
   ent "vmor.mm" ["vmor_vv"] [Is [(31, 26)] 0x1a; Is [(25, 25)] 1; Is [(14, 12)] 2; Is [(6, 0)] 0x57];
   ent "vmxor.mm" ["vmxor_vv"] [Is [(31, 26)] 0x1b; Is [(25, 25)] 1; Is [(14, 12)] 2; Is [(6, 0)] 0x57];
   ent "vmorn.mm" ["vmornot_vv"] [Is [(31, 26)] 0x1c; Is [(25, 25)] 1; Is [(14, 12)] 2; Is [(6, 0)] 0x57];
   ent "vmnand.mm" ["vmnand_vv"] [Is [(31, 26)] 0x1d; Is [(25, 25)] 1; Is [(14, 12)] 2; Is [(6, 0)] 0x57];
   ent "vmnor.mm" ["vmnor_vv"] [Is [(31, 26)] 0x1e; Is [(25, 25)] 1; Is [(14, 12)] 2; Is [(6, 0)] 0x57];
   ent "vmxnor.mm" ["vmxnor_vv"] [Is [(31, 26)] 0x1f; Is [(25, 25)] 1; Is [(14, 12)] 2; Is [(6, 0)] 0x57];
   ent "vfadd.vv" ["vfadd_vv"] [Is [(31, 26)] 0; Is [(14, 12)] 1; Is [(6, 0)] 0x57];
   ent "vfadd.vf" ["vfadd_vf"] [Is [(31, 26)] 0; Is [(14, 12)] 5; Is [(6, 0)] 0x57];
   ent "vfsub.vv" ["vfsub_vv"] [Is [(31, 26)] 2; Is [(14, 12)] 1; Is [(6, 0)] 0x57];
   ent "vfsub.vf" ["vfsub_vf"] [Is [(31, 26)] 2; Is [(14, 12)] 5; Is [(6, 0)] 0x57];
   ent "vfmin.vv" ["vfmin_vv"] [Is [(31, 26)] 4; Is [(14, 12)] 1; Is [(6, 0)] 0x57];
   ent "vfmin.vf" ["vfmin_vf"] [Is [(31, 26)] 4; Is [(14, 12)] 5; Is [(6, 0)] 0x57];
   ent "vfmax.vv" ["vfmax_vv"] [Is [(31, 26)] 6; Is [(14, 12)] 1; Is [(6, 0)] 0x57];
   ent "vfmax.vf" ["vfmax_vf"] [Is [(31, 26)] 6; Is [(14, 12)] 5; Is [(6, 0)] 0x57];
   ent "vfsgnj.vv" ["vfsgnj_vv"] [Is [(31, 26)] 8; Is [(14, 12)] 1; Is [(6, 0)] 0x57];
   ent "vfsgnj.vf" ["vfsgnj_vf"] [Is [(31, 26)] 8; Is [(14, 12)] 5; Is [(6, 0)] 0x57];
   ent "vfsgnjn.vv" ["vfsgnjn_vv"] [Is [(31, 26)] 9; Is [(14, 12)] 1; Is [(6, 0)] 0x57];
   ent "vfsgnjn.vf" ["vfsgnjn_vf"] [Is [(31, 26)] 9; Is [(14, 12)] 5; Is [(6, 0)] 0x57];
   ent "vfsgnjx.vv" ["vfsgnjx_vv"] [Is [(31, 26)] 0xa; Is [(14, 12)] 1; Is [(6, 0)] 0x57];
   ent "vfsgnjx.vf" ["vfsgnjx_vf"] [Is [(31, 26)] 0xa; Is [(14, 12)] 5; Is [(6, 0)] 0x57];
   ent "vfslide1up.vf" ["vfslide1up_vf"] [Is [(31, 26)] 0xe; Is [(14, 12)] 5; Is [(6, 0)] 0x57];
   ent "vfslide1down.vf" ["vfslide1down_vf"] [Is [(31, 26)] 0xf; Is [(14, 12)] 5; Is [(6, 0)] 0x57];
   ent "vmfeq.vv" ["vmfeq_vv"] [Is [(31, 26)] 0x18; Is [(14, 12)] 1; Is [(6, 0)] 0x57];
   ent "vmfeq.vf" ["vmfeq_vf"] [Is [(31, 26)] 0x18; Is [(14, 12)] 5; Is [(6, 0)] 0x57];
   ent "vmfle.vv" ["vmfle_vv"] [Is [(31, 26)] 0x19; Is [(14, 12)] 1; Is [(6, 0)] 0x57];
   ent "vmfle.vf" ["vmfle_vf"] [Is [(31, 26)] 0x19; Is [(14, 12)] 5; Is [(6, 0)] 0x57];
   ent "vmflt.vv" ["vmflt_vv"] [Is [(31, 26)] 0x1b; Is [(14, 12)] 1; Is [(6, 0)] 0x57];
   ent "vmflt.vf" ["vmflt_vf"] [Is [(31, 26)] 0x1b; Is [(14, 12)] 5; Is [(6, 0)] 0x57];
   ent "vmfne.vv" ["vmfne_vv"] [Is [(31, 26)] 0x1c; Is [(14, 12)] 1; Is [(6, 0)] 0x57];
   ent "vmfne.vf" ["vmfne_vf"] [Is [(31, 26)] 0x1c; Is [(14, 12)] 5; Is [(6, 0)] 0x57];
   ent "vmfgt.vf" ["vmfgt_vf"] [Is [(31, 26)] 0x1d; Is [(14, 12)] 5; Is [(6, 0)] 0x57];
   ent "vmfge.vf" ["vmfge_vf"] [Is [(31, 26)] 0x1f; Is [(14, 12)] 5; Is [(6, 0)] 0x57];
   ent "vfdiv.vv" ["vfdiv_vv"] [Is [(31, 26)] 0x20; Is [(14, 12)] 1; Is [(6, 0)] 0x57];
   ent "vfdiv.vf" ["vfdiv_vf"] [Is [(31, 26)] 0x20; Is [(14, 12)] 5; Is [(6, 0)] 0x57];
   ent "vfrdiv.vf" ["vfrdiv_vf"] [Is [(31, 26)] 0x21; Is [(14, 12)] 5; Is [(6, 0)] 0x57];
   ent "vfmul.vv" ["vfmul_vv"] [Is [(31, 26)] 0x24; Is [(14, 12)] 1; Is [(6, 0)] 0x57];
   ent "vfmul.vf" ["vfmul_vf"] [Is [(31, 26)] 0x24; Is [(14, 12)] 5; Is [(6, 0)] 0x57];
   ent "vfrsub.vf" ["vfrsub_vf"] [Is [(31, 26)] 0x27; Is [(14, 12)] 5; Is [(6, 0)] 0x57];
   ent "vfmadd.vv" ["vfmadd_vv"] [Is [(31, 26)] 0x28; Is [(14, 12)] 1; Is [(6, 0)] 0x57];
   ent "vfmadd.vf" ["vfmadd_vf"] [Is [(31, 26)] 0x28; Is [(14, 12)] 5; Is [(6, 0)] 0x57];
   ent "vfnmadd.vv" ["vfnmadd_vv"] [Is [(31, 26)] 0x29; Is [(14, 12)] 1; Is [(6, 0)] 0x57];
   ent "vfnmadd.vf" ["vfnmadd_vf"] [Is [(31, 26)] 0x29; Is [(14, 12)] 5; Is [(6, 0)] 0x57];
   ent "vfmsub.vv" ["vfmsub_vv"] [Is [(31, 26)] 0x2a; Is [(14, 12)] 1; Is [(6, 0)] 0x57];
   ent "vfmsub.vf" ["vfmsub_vf"] [Is [(31, 26)] 0x2a; Is [(14, 12)] 5; Is [(6, 0)] 0x57];
   ent "vfnmsub.vv" ["vfnmsub_vv"] [Is [(31, 26)] 0x2b; Is [(14, 12)] 1; Is [(6, 0)] 0x57];
   ent "vfnmsub.vf" ["vfnmsub_vf"] [Is [(31, 26)] 0x2b; Is [(14, 12)] 5; Is [(6, 0)] 0x57];
   ent "vfmacc.vv" ["vfmacc_vv"] [Is [(31, 26)] 0x2c; Is [(14, 12)] 1; Is [(6, 0)] 0x57];
   ent "vfmacc.vf" ["vfmacc_vf"] [Is [(31, 26)] 0x2c; Is [(14, 12)] 5; Is [(6, 0)] 0x57];
   ent "vfnmacc.vv" ["vfnmacc_vv"] [Is [(31, 26)] 0x2d; Is [(14, 12)] 1; Is [(6, 0)] 0x57];
   ent "vfnmacc.vf" ["vfnmacc_vf"] [Is [(31, 26)] 0x2d; Is [(14, 12)] 5; Is [(6, 0)] 0x57];
   ent "vfmsac.vv" ["vfmsac_vv"] [Is [(31, 26)] 0x2e; Is [(14, 12)] 1; Is [(6, 0)] 0x57];
   ent "vfmsac.vf" ["vfmsac_vf"] [Is [(31, 26)] 0x2e; Is [(14, 12)] 5; Is [(6, 0)] 0x57];
   ent "vfnmsac.vv" ["vfnmsac_vv"] [Is [(31, 26)] 0x2f; Is [(14, 12)] 1; Is [(6, 0)] 0x57];
   ent "vfnmsac.vf" ["vfnmsac_vf"] [Is [(31, 26)] 0x2f; Is [(14, 12)] 5; Is [(6, 0)] 0x57];
   ent "vfwadd.vv" ["vfwadd_vv"] [Is [(31, 26)] 0x30; Is [(14, 12)] 1; Is [(6, 0)] 0x57];
   ent "vfwadd.vf" ["vfwadd_vf"] [Is [(31, 26)] 0x30; Is [(14, 12)] 5; Is [(6, 0)] 0x57];
   ent "vfwsub.vv" ["vfwsub_vv"] [Is [(31, 26)] 0x32; Is [(14, 12)] 1; Is [(6, 0)] 0x57];
   ent "vfwsub.vf" ["vfwsub_vf"] [Is [(31, 26)] 0x32; Is [(14, 12)] 5; Is [(6, 0)] 0x57];
   ent "vfwmul.vv" ["vfwmul_vv"] [Is [(31, 26)] 0x38; Is [(14, 12)] 1; Is [(6, 0)] 0x57];
   ent "vfwmul.vf" ["vfwmul_vf"] [Is [(31, 26)] 0x38; Is [(14, 12)] 5; Is [(6, 0)] 0x57];
   ent "vfwmacc.vv" ["vfwmacc_vv"] [Is [(31, 26)] 0x3c; Is [(14, 12)] 1; Is [(6, 0)] 0x57];
   ent "vfwmacc.vf" ["vfwmacc_vf"] [Is [(31, 26)] 0x3c; Is [(14, 12)] 5; Is [(6, 0)] 0x57];
   ent "vfwnmacc.vv" ["vfwnmacc_vv"] [Is [(31, 26)] 0x3d; Is [(14, 12)] 1; Is [(6, 0)] 0x57];
   ent "vfwnmacc.vf" ["vfwnmacc_vf"] [Is [(31, 26)] 0x3d; Is [(14, 12)] 5; Is [(6, 0)] 0x57];
   ent "vfwmsac.vv" ["vfwmsac_vv"] [Is [(31, 26)] 0x3e; Is [(14, 12)] 1; Is [(6, 0)] 0x57];
   ent "vfwmsac.vf" ["vfwmsac_vf"] [Is [(31, 26)] 0x3e; Is [(14, 12)] 5; Is [(6, 0)] 0x57];
   ent "vfwnmsac.vv" ["vfwnmsac_vv"] [Is [(31, 26)] 0x3f; Is [(14, 12)] 1; Is [(6, 0)] 0x57];
   ent "vfwnmsac.vf" ["vfwnmsac_vf"] [Is [(31, 26)] 0x3f; Is [(14, 12)] 5; Is [(6, 0)] 0x57];
   ent "vfwadd.wv" ["vfwadd_w_vv"] [Is [(31, 26)] 0x34; Is [(14, 12)] 1; Is [(6, 0)] 0x57];
   ent "vfwadd.wf" ["vfwadd_w_vf"] [Is [(31, 26)] 0x34; Is [(14, 12)] 5; Is [(6, 0)] 0x57];
   ent "vfwsub.wv" ["vfwsub_w_vv"] [Is [(31, 26)] 0x36; Is [(14, 12)] 1; Is [(6, 0)] 0x57];
   ent "vfwsub.wf" ["vfwsub_w_vf"] [Is [(31, 26)] 0x36; Is [(14, 12)] 5; Is [(6, 0)] 0x57];
   ent "vfredusum.vs" ["vfredusum_vv"] [Is [(31, 26)] 1; Is [(14, 12)] 1; Is [(6, 0)] 0x57];
   ent "vfredosum.vs" ["vfredosum_vv"] [Is [(31, 26)] 3; Is [(14, 12)] 1; Is [(6, 0)] 0x57];
   ent "vfredmin.vs" ["vfredmin_vv"] [Is [(31, 26)] 5; Is [(14, 12)] 1; Is [(6, 0)] 0x57];
   ent "vfredmax.vs" ["vfredmax_vv"] [Is [(31, 26)] 7; Is [(14, 12)] 1; Is [(6, 0)] 0x57];
   ent "vfwredusum.vs" ["vfwredusum_vv"] [Is [(31, 26)] 0x31; Is [(14, 12)] 1; Is [(6, 0)] 0x57];
   ent "vfwredosum.vs" ["vfwredosum_vv"] [Is [(31, 26)] 0x33; Is [(14, 12)] 1; Is [(6, 0)] 0x57];
   ent "vfmv.f.s" ["vfmv_f_s"] [Is [(31, 26)] 0x10; Is [(25, 25)] 1; Is [(19, 15)] 0; Is [(14, 12)] 1; Is [(6, 0)] 0x57];
   ent "vfmv.s.f" ["vfmv_s_f"] [Is [(31, 26)] 0x10; Is [(25, 25)] 1; Is [(24, 20)] 0; Is [(14, 12)] 5; Is [(6, 0)] 0x57];
   ent "vfmerge.vfm" ["vfmerge_vf"] [Is [(31, 26)] 0x17; Is [(25, 25)] 0; Is [(14, 12)] 5; Is [(6, 0)] 0x57];
   ent "vfmv.v.f" ["vfmv_vf"] [Is [(31, 26)] 0x17; Is [(25, 25)] 1; Is [(24, 20)] 0; Is [(14, 12)] 5; Is [(6, 0)] 0x57];
   ent "vfcvt.xu.f.v" ["vfcvt_xu_f_v"] [Is [(31, 26)] 0x12; Is [(19, 15)] 0; Is [(14, 12)] 1; Is [(6, 0)] 0x57];
   ent "vfcvt.x.f.v" ["vfcvt_x_f_v"] [Is [(31, 26)] 0x12; Is [(19, 15)] 1; Is [(14, 12)] 1; Is [(6, 0)] 0x57];
   ent "vfcvt.f.xu.v" ["vfcvt_f_xu_v"] [Is [(31, 26)] 0x12; Is [(19, 15)] 2; Is [(14, 12)] 1; Is [(6, 0)] 0x57];
   ent "vfcvt.f.x.v" ["vfcvt_f_x_v"] [Is [(31, 26)] 0x12; Is [(19, 15)] 3; Is [(14, 12)] 1; Is [(6, 0)] 0x57];
   ent "vfcvt.rtz.xu.f.v" ["vfcvt_rtz_xu_f_v"] [Is [(31, 26)] 0x12; Is [(19, 15)] 6; Is [(14, 12)] 1; Is [(6, 0)] 0x57];
   ent "vfcvt.rtz.x.f.v" ["vfcvt_rtz_x_f_v"] [Is [(31, 26)] 0x12; Is [(19, 15)] 7; Is [(14, 12)] 1; Is [(6, 0)] 0x57];
   ent "vfwcvt.xu.f.v" ["vfwcvt_xu_f_v"] [Is [(31, 26)] 0x12; Is [(19, 15)] 8; Is [(14, 12)] 1; Is [(6, 0)] 0x57];
   ent "vfwcvt.x.f.v" ["vfwcvt_x_f_v"] [Is [(31, 26)] 0x12; Is [(19, 15)] 9; Is [(14, 12)] 1; Is [(6, 0)] 0x57];
   ent "vfwcvt.f.xu.v" ["vfwcvt_f_xu_v"] [Is [(31, 26)] 0x12; Is [(19, 15)] 0xa; Is [(14, 12)] 1; Is [(6, 0)] 0x57];
   ent "vfwcvt.f.x.v" ["vfwcvt_f_x_v"] [Is [(31, 26)] 0x12; Is [(19, 15)] 0xb; Is [(14, 12)] 1; Is [(6, 0)] 0x57];
   ent "vfwcvt.f.f.v" ["vfwcvt_f_f_v"] [Is [(31, 26)] 0x12; Is [(19, 15)] 0xc; Is [(14, 12)] 1; Is [(6, 0)] 0x57];
   ent "vfwcvt.rtz.xu.f.v" ["vfwcvt_rtz_xu_f_v"] [Is [(31, 26)] 0x12; Is [(19, 15)] 0xe; Is [(14, 12)] 1; Is [(6, 0)] 0x57];
   ent "vfwcvt.rtz.x.f.v" ["vfwcvt_rtz_x_f_v"] [Is [(31, 26)] 0x12; Is [(19, 15)] 0xf; Is [(14, 12)] 1; Is [(6, 0)] 0x57];
   ent "vfncvt.xu.f.w" ["vfncvt_xu_f_w"] [Is [(31, 26)] 0x12; Is [(19, 15)] 0x10; Is [(14, 12)] 1; Is [(6, 0)] 0x57];
   ent "vfncvt.x.f.w" ["vfncvt_x_f_w"] [Is [(31, 26)] 0x12; Is [(19, 15)] 0x11; Is [(14, 12)] 1; Is [(6, 0)] 0x57];
   ent "vfncvt.f.xu.w" ["vfncvt_f_xu_w"] [Is [(31, 26)] 0x12; Is [(19, 15)] 0x12; Is [(14, 12)] 1; Is [(6, 0)] 0x57];
   ent "vfncvt.f.x.w" ["vfncvt_f_x_w"] [Is [(31, 26)] 0x12; Is [(19, 15)] 0x13; Is [(14, 12)] 1; Is [(6, 0)] 0x57];
   ent "vfncvt.f.f.w" ["vfncvt_f_f_w"] [Is [(31, 26)] 0x12; Is [(19, 15)] 0x14; Is [(14, 12)] 1; Is [(6, 0)] 0x57];
   ent "vfncvt.rod.f.f.w" ["vfncvt_rod_f_f_w"] [Is [(31, 26)] 0x12; Is [(19, 15)] 0x15; Is [(14, 12)] 1; Is [(6, 0)] 0x57];
   ent "vfncvt.rtz.xu.f.w" ["vfncvt_rtz_xu_f_w"] [Is [(31, 26)] 0x12; Is [(19, 15)] 0x16; Is [(14, 12)] 1; Is [(6, 0)] 0x57];
   ent "vfncvt.rtz.x.f.w" ["vfncvt_rtz_x_f_w"] [Is [(31, 26)] 0x12; Is [(19, 15)] 0x17; Is [(14, 12)] 1; Is [(6, 0)] 0x57];
   ent "vfsqrt.v" ["vfsqrt_v"] [Is [(31, 26)] 0x13; Is [(19, 15)] 0; Is [(14, 12)] 1; Is [(6, 0)] 0x57];
   ent "vfrsqrt7.v" ["vfrsqrt7_v"] [Is [(31, 26)] 0x13; Is [(19, 15)] 4; Is [(14, 12)] 1; Is [(6, 0)] 0x57];
   ent "vfrec7.v" ["vfrec7_v"] [Is [(31, 26)] 0x13; Is [(19, 15)] 5; Is [(14, 12)] 1; Is [(6, 0)] 0x57];
   ent "vfclass.v" ["vfclass_v"] [Is [(31, 26)] 0x13; Is [(19, 15)] 0x10; Is [(14, 12)] 1; Is [(6, 0)] 0x57]].

(** Zvbb. *)
Definition m_Zvbb : list entry := [
   ent "vandn.vv" ["vandn_vv"] [Is [(31, 26)] 1; Is [(14, 12)] 0; Is [(6, 0)] 0x57];
   ent "vandn.vx" ["vandn_vx"] [Is [(31, 26)] 1; Is [(14, 12)] 4; Is [(6, 0)] 0x57];
   ent "vrol.vv" ["vrol_vv"] [Is [(31, 26)] 0x15; Is [(14, 12)] 0; Is [(6, 0)] 0x57];
   ent "vrol.vx" ["vrol_vx"] [Is [(31, 26)] 0x15; Is [(14, 12)] 4; Is [(6, 0)] 0x57];
   ent "vror.vv" ["vror_vv"] [Is [(31, 26)] 0x14; Is [(14, 12)] 0; Is [(6, 0)] 0x57];
   ent "vror.vx" ["vror_vx"] [Is [(31, 26)] 0x14; Is [(14, 12)] 4; Is [(6, 0)] 0x57];
   ent "vwsll.vv" ["vwsll_vv"] [Is [(31, 26)] 0x35; Is [(14, 12)] 0; Is [(6, 0)] 0x57];
   ent "vwsll.vx" ["vwsll_vx"] [Is [(31, 26)] 0x35; Is [(14, 12)] 4; Is [(6, 0)] 0x57];
   ent "vwsll.vi" ["vwsll_vi"] [Is [(31, 26)] 0x35; Is [(14, 12)] 3; Is [(6, 0)] 0x57];
   ent "vror.vi" ["vror_vi"] [Is [(31, 27)] 0xa; Is [(14, 12)] 3; Is [(6, 0)] 0x57];
   ent "vbrev8.v" ["vbrev8_v"] [Is [(31, 26)] 0x12; Is [(19, 15)] 8; Is [(14, 12)] 2; Is [(6, 0)] 0x57];
   ent "vrev8.v" ["vrev8_v"] [Is [(31, 26)] 0x12; Is [(19, 15)] 9; Is [(14, 12)] 2; Is [(6, 0)] 0x57];
   ent "vbrev.v" ["vbrev_v"] [Is [(31, 26)] 0x12; Is [(19, 15)] 0xa; Is [(14, 12)] 2; Is [(6, 0)] 0x57];
   ent "vclz.v" ["vclz_v"] [Is [(31, 26)] 0x12; Is [(19, 15)] 0xc; Is [(14, 12)] 2; Is [(6, 0)] 0x57];
   ent "vctz.v" ["vctz_v"] [Is [(31, 26)] 0x12; Is [(19, 15)] 0xd; Is [(14, 12)] 2; Is [(6, 0)] 0x57];
   ent "vcpop.v" ["vcpop_v"] [Is [(31, 26)] 0x12; Is [(19, 15)] 0xe; Is [(14, 12)] 2; Is [(6, 0)] 0x57]].

(** Decoder RiscV32G. *)
Definition s_RiscV32G : decoder_spec := {| ds_width := 32;
  ds_manual := m_I32 ++ m_Zifencei ++ m_Zicsr ++ m_M32 ++ m_A32 ++ m_F32 ++ m_D32 ++ m_Priv;
  ds_missing := [
    Build_region ["add"] [Atleast [(24, 20)] 2; Below [(24, 20)] 6; Is [(19, 15)] 0; Is [(11, 7)] 0];
    Build_region ["csrrw"] [Is [(31, 20)] 0xc00; Isnt [(19, 15)] 0];
    Build_region ["csrrw"] [Is [(31, 20)] 0xc00; Isnt [(11, 7)] 0];
    Build_region ["fence"] [Isnt [(31, 28)] 0];
    Build_region ["fence"] [Is [(31, 28)] 0; Is [(23, 20)] 0; Isnt [(19, 15)] 0; Isnt [(11, 7)] 0]];
  ds_extra := [] |}.

(** Decoder RiscV64G. *)
Definition s_RiscV64G : decoder_spec := {| ds_width := 32;
  ds_manual := m_I64 ++ m_Zifencei ++ m_Zicsr ++ m_M64 ++ m_A64 ++ m_F64 ++ m_D64 ++ m_Priv;
  ds_missing := [
    Build_region ["add"] [Atleast [(24, 20)] 2; Below [(24, 20)] 6; Is [(19, 15)] 0; Is [(11, 7)] 0];
    Build_region ["csrrw"] [Is [(31, 20)] 0xc00; Isnt [(19, 15)] 0];
    Build_region ["csrrw"] [Is [(31, 20)] 0xc00; Isnt [(11, 7)] 0];
    Build_region ["fence"] [Isnt [(31, 28)] 0];
    Build_region ["fence"] [Is [(31, 28)] 0; Is [(23, 20)] 0; Isnt [(19, 15)] 0; Isnt [(11, 7)] 0]];
  ds_extra := [] |}.

(** Decoder RiscV32C. *)
Definition s_RiscV32C : decoder_spec := {| ds_width := 16;
  ds_manual := m_Zca32 ++ m_Zcf ++ m_Zcd;
  ds_missing := [
    Build_region ["c.slli"] [Is [(12, 2)] 0];
    Build_region ["c.add"] [Is [(11, 7)] 0; Atleast [(6, 2)] 2; Below [(6, 2)] 6]];
  ds_extra := [
    Build_region ["cslli_hint"] [Is [(12, 12)] 1];
    Build_region ["clui"; "caddi16sp"] [Is [(12, 12); (6, 2)] 0]] |}.

(** Decoder RiscV64C. *)
Definition s_RiscV64C : decoder_spec := {| ds_width := 16;
  ds_manual := m_Zca64 ++ m_Zcd;
  ds_missing := [
    Build_region ["c.slli"; "c.srli"; "c.srai"] [Is [(12, 12)] 0; Is [(6, 2)] 0];
    Build_region ["c.add"] [Is [(11, 7)] 0; Atleast [(6, 2)] 2; Below [(6, 2)] 6]];
  ds_extra := [] |}.

(** Decoder RiscV32GZB. *)
Definition s_RiscV32GZB : decoder_spec := {| ds_width := 32;
  ds_manual := m_I32 ++ m_Zifencei ++ m_Zicsr ++ m_M32 ++ m_A32 ++ m_F32 ++ m_D32 ++ m_Priv ++ m_B32;
  ds_missing := [
    Build_region ["add"] [Atleast [(24, 20)] 2; Below [(24, 20)] 6; Is [(19, 15)] 0; Is [(11, 7)] 0];
    Build_region ["csrrw"] [Is [(31, 20)] 0xc00; Isnt [(19, 15)] 0];
    Build_region ["csrrw"] [Is [(31, 20)] 0xc00; Isnt [(11, 7)] 0];
    Build_region ["fence"] [Isnt [(31, 28)] 0];
    Build_region ["fence"] [Is [(31, 28)] 0; Is [(23, 20)] 0; Isnt [(19, 15)] 0; Isnt [(11, 7)] 0]];
  ds_extra := [] |}.

(** Decoder RiscV64GZB. *)
Definition s_RiscV64GZB : decoder_spec := {| ds_width := 32;
  ds_manual := m_I64 ++ m_Zifencei ++ m_Zicsr ++ m_M64 ++ m_A64 ++ m_F64 ++ m_D64 ++ m_Priv ++ m_B64;
  ds_missing := [
    Build_region ["add"] [Atleast [(24, 20)] 2; Below [(24, 20)] 6; Is [(19, 15)] 0; Is [(11, 7)] 0];
    Build_region ["csrrw"] [Is [(31, 20)] 0xc00; Isnt [(19, 15)] 0];
    Build_region ["csrrw"] [Is [(31, 20)] 0xc00; Isnt [(11, 7)] 0];
    Build_region ["fence"] [Isnt [(31, 28)] 0];
    Build_region ["fence"] [Is [(31, 28)] 0; Is [(23, 20)] 0; Isnt [(19, 15)] 0; Isnt [(11, 7)] 0];
    Build_region ["bclri"; "bexti"; "binvi"; "bseti"; "rev8"] []];
  ds_extra := [
    Build_region ["bclri"; "bexti"; "binvi"; "bseti"; "rev8"] []] |}.

(** Decoder RiscV32GV. *)
Definition s_RiscV32GV : decoder_spec := {| ds_width := 32;
  ds_manual := m_I32 ++ m_Zifencei ++ m_Zicsr ++ m_M32 ++ m_A32 ++ m_F32 ++ m_D32 ++ m_Priv ++ m_V;
  ds_missing := [
    Build_region ["add"] [Atleast [(24, 20)] 2; Below [(24, 20)] 6; Is [(19, 15)] 0; Is [(11, 7)] 0];
    Build_region ["csrrw"] [Is [(31, 20)] 0xc00; Isnt [(19, 15)] 0];
    Build_region ["csrrw"] [Is [(31, 20)] 0xc00; Isnt [(11, 7)] 0];
    Build_region ["fence"] [Isnt [(31, 28)] 0];
    Build_region ["fence"] [Is [(31, 28)] 0; Is [(23, 20)] 0; Isnt [(19, 15)] 0; Isnt [(11, 7)] 0];
    Build_region ["vlseg<nf>e8ff.v"; "vlseg<nf>e16ff.v"; "vlseg<nf>e32ff.v"; "vlseg<nf>e64ff.v"] []];
  ds_extra := [
    Build_region ["vlm"; "vsm"] [Is [(25, 25)] 0];
    Build_region ["vl1re8"; "vl1re16"; "vl1re32"; "vl1re64"; "vl2re8"; "vl2re16"; "vl2re32"; "vl2re64"; "vl4re8"; "vl4re16"; "vl4re32"; "vl4re64"; "vl8re8"; "vl8re16"; "vl8re32"; "vl8re64"; "vs1re8"; "vs2re8"; "vs4re8"; "vs8re8"] [Is [(28, 28)] 1];
    Build_region ["vs1re16"; "vs1re32"; "vs1re64"; "vs2re16"; "vs2re32"; "vs2re64"; "vs4re16"; "vs4re32"; "vs4re64"; "vs8re16"; "vs8re32"; "vs8re64"] [];
    Build_region ["vse8ff"; "vse16ff"; "vse32ff"; "vse64ff"; "vwmaccus_vv"] [];
    Build_region ["vfmv_f_s"; "vfmv_s_f"; "vmv_x_s"; "vmv_s_x"; "vcompress_vv"; "vmandnot_vv"; "vmand_vv"; "vmor_vv"; "vmxor_vv"; "vmornot_vv"; "vmnand_vv"; "vmnor_vv"; "vmxnor_vv"; "vmv1r_vi"; "vmv2r_vi"; "vmv4r_vi"; "vmv8r_vi"] [Is [(25, 25)] 0];
    Build_region ["vid"] [Isnt [(24, 20)] 0]] |}.

(** Decoder RiscV64GV. *)
Definition s_RiscV64GV : decoder_spec := {| ds_width := 32;
  ds_manual := m_I64 ++ m_Zifencei ++ m_Zicsr ++ m_M64 ++ m_A64 ++ m_F64 ++ m_D64 ++ m_Priv ++ m_V;
  ds_missing := [
    Build_region ["add"] [Atleast [(24, 20)] 2; Below [(24, 20)] 6; Is [(19, 15)] 0; Is [(11, 7)] 0];
    Build_region ["csrrw"] [Is [(31, 20)] 0xc00; Isnt [(19, 15)] 0];
    Build_region ["csrrw"] [Is [(31, 20)] 0xc00; Isnt [(11, 7)] 0];
    Build_region ["fence"] [Isnt [(31, 28)] 0];
    Build_region ["fence"] [Is [(31, 28)] 0; Is [(23, 20)] 0; Isnt [(19, 15)] 0; Isnt [(11, 7)] 0];
    Build_region ["vlseg<nf>e8ff.v"; "vlseg<nf>e16ff.v"; "vlseg<nf>e32ff.v"; "vlseg<nf>e64ff.v"] []];
  ds_extra := [
    Build_region ["vlm"; "vsm"] [Is [(25, 25)] 0];
    Build_region ["vl1re8"; "vl1re16"; "vl1re32"; "vl1re64"; "vl2re8"; "vl2re16"; "vl2re32"; "vl2re64"; "vl4re8"; "vl4re16"; "vl4re32"; "vl4re64"; "vl8re8"; "vl8re16"; "vl8re32"; "vl8re64"; "vs1re8"; "vs2re8"; "vs4re8"; "vs8re8"] [Is [(28, 28)] 1];
    Build_region ["vs1re16"; "vs1re32"; "vs1re64"; "vs2re16"; "vs2re32"; "vs2re64"; "vs4re16"; "vs4re32"; "vs4re64"; "vs8re16"; "vs8re32"; "vs8re64"] [];
    Build_region ["vse8ff"; "vse16ff"; "vse32ff"; "vse64ff"; "vwmaccus_vv"] [];
    Build_region ["vfmv_f_s"; "vfmv_s_f"; "vmv_x_s"; "vmv_s_x"; "vcompress_vv"; "vmandnot_vv"; "vmand_vv"; "vmor_vv"; "vmxor_vv"; "vmornot_vv"; "vmnand_vv"; "vmnor_vv"; "vmxnor_vv"; "vmv1r_vi"; "vmv2r_vi"; "vmv4r_vi"; "vmv8r_vi"] [Is [(25, 25)] 0];
    Build_region ["vid"] [Isnt [(24, 20)] 0]] |}.

(** Decoder RiscV32GVZB. *)
Definition s_RiscV32GVZB : decoder_spec := {| ds_width := 32;
  ds_manual := m_I32 ++ m_Zifencei ++ m_Zicsr ++ m_M32 ++ m_A32 ++ m_F32 ++ m_D32 ++ m_Priv ++ m_V ++ m_B32;
  ds_missing := [
    Build_region ["add"] [Atleast [(24, 20)] 2; Below [(24, 20)] 6; Is [(19, 15)] 0; Is [(11, 7)] 0];
    Build_region ["csrrw"] [Is [(31, 20)] 0xc00; Isnt [(19, 15)] 0];
    Build_region ["csrrw"] [Is [(31, 20)] 0xc00; Isnt [(11, 7)] 0];
    Build_region ["fence"] [Isnt [(31, 28)] 0];
    Build_region ["fence"] [Is [(31, 28)] 0; Is [(23, 20)] 0; Isnt [(19, 15)] 0; Isnt [(11, 7)] 0];
    Build_region ["vlseg<nf>e8ff.v"; "vlseg<nf>e16ff.v"; "vlseg<nf>e32ff.v"; "vlseg<nf>e64ff.v"] [];
    Build_region ["rori"; "bclri"; "bexti"; "binvi"; "bseti"; "zext.h"] []];
  ds_extra := [
    Build_region ["vlm"; "vsm"] [Is [(25, 25)] 0];
    Build_region ["vl1re8"; "vl1re16"; "vl1re32"; "vl1re64"; "vl2re8"; "vl2re16"; "vl2re32"; "vl2re64"; "vl4re8"; "vl4re16"; "vl4re32"; "vl4re64"; "vl8re8"; "vl8re16"; "vl8re32"; "vl8re64"; "vs1re8"; "vs2re8"; "vs4re8"; "vs8re8"] [Is [(28, 28)] 1];
    Build_region ["vs1re16"; "vs1re32"; "vs1re64"; "vs2re16"; "vs2re32"; "vs2re64"; "vs4re16"; "vs4re32"; "vs4re64"; "vs8re16"; "vs8re32"; "vs8re64"] [];
    Build_region ["vse8ff"; "vse16ff"; "vse32ff"; "vse64ff"; "vwmaccus_vv"] [];
    Build_region ["vfmv_f_s"; "vfmv_s_f"; "vmv_x_s"; "vmv_s_x"; "vcompress_vv"; "vmandnot_vv"; "vmand_vv"; "vmor_vv"; "vmxor_vv"; "vmornot_vv"; "vmnand_vv"; "vmnor_vv"; "vmxnor_vv"; "vmv1r_vi"; "vmv2r_vi"; "vmv4r_vi"; "vmv8r_vi"] [Is [(25, 25)] 0];
    Build_region ["vid"] [Isnt [(24, 20)] 0]] |}.

(** Decoder RiscV64GVZB. *)
Definition s_RiscV64GVZB : decoder_spec := {| ds_width := 32;
  ds_manual := m_I64 ++ m_Zifencei ++ m_Zicsr ++ m_M64 ++ m_A64 ++ m_F64 ++ m_D64 ++ m_Priv ++ m_V ++ m_B64;
  ds_missing := [
    Build_region ["add"] [Atleast [(24, 20)] 2; Below [(24, 20)] 6; Is [(19, 15)] 0; Is [(11, 7)] 0];
    Build_region ["csrrw"] [Is [(31, 20)] 0xc00; Isnt [(19, 15)] 0];
    Build_region ["csrrw"] [Is [(31, 20)] 0xc00; Isnt [(11, 7)] 0];
    Build_region ["fence"] [Isnt [(31, 28)] 0];
    Build_region ["fence"] [Is [(31, 28)] 0; Is [(23, 20)] 0; Isnt [(19, 15)] 0; Isnt [(11, 7)] 0];
    Build_region ["vlseg<nf>e8ff.v"; "vlseg<nf>e16ff.v"; "vlseg<nf>e32ff.v"; "vlseg<nf>e64ff.v"] [];
    Build_region ["bclri"; "bexti"; "binvi"; "bseti"; "rev8"] []];
  ds_extra := [
    Build_region ["vlm"; "vsm"] [Is [(25, 25)] 0];
    Build_region ["vl1re8"; "vl1re16"; "vl1re32"; "vl1re64"; "vl2re8"; "vl2re16"; "vl2re32"; "vl2re64"; "vl4re8"; "vl4re16"; "vl4re32"; "vl4re64"; "vl8re8"; "vl8re16"; "vl8re32"; "vl8re64"; "vs1re8"; "vs2re8"; "vs4re8"; "vs8re8"] [Is [(28, 28)] 1];
    Build_region ["vs1re16"; "vs1re32"; "vs1re64"; "vs2re16"; "vs2re32"; "vs2re64"; "vs4re16"; "vs4re32"; "vs4re64"; "vs8re16"; "vs8re32"; "vs8re64"] [];
    Build_region ["vse8ff"; "vse16ff"; "vse32ff"; "vse64ff"; "vwmaccus_vv"] [];
    Build_region ["vfmv_f_s"; "vfmv_s_f"; "vmv_x_s"; "vmv_s_x"; "vcompress_vv"; "vmandnot_vv"; "vmand_vv"; "vmor_vv"; "vmxor_vv"; "vmornot_vv"; "vmnand_vv"; "vmnor_vv"; "vmxnor_vv"; "vmv1r_vi"; "vmv2r_vi"; "vmv4r_vi"; "vmv8r_vi"] [Is [(25, 25)] 0];
    Build_region ["vid"] [Isnt [(24, 20)] 0];
    Build_region ["bclri"; "bexti"; "binvi"; "bseti"; "rev8"] []] |}.

(** Decoder RVM23Inst32. *)
Definition s_RVM23Inst32 : decoder_spec := {| ds_width := 32;
  ds_manual := m_I32 ++ m_Zifencei ++ m_Zicsr ++ m_M32 ++ m_A32 ++ m_F32 ++ m_D32 ++ m_Priv ++ m_B32 ++ m_Zicond ++ m_Zimop ++ m_Zihintpause ++ m_Zihintntl ++ m_Zicbop;
  ds_missing := [
    Build_region ["csrrw"] [Is [(31, 20)] 0xc00; Isnt [(19, 15)] 0];
    Build_region ["csrrw"] [Is [(31, 20)] 0xc00; Isnt [(11, 7)] 0];
    Build_region ["fence"] [Isnt [(31, 28)] 0];
    Build_region ["fence"] [Is [(31, 28)] 0; Is [(23, 20)] 0; Isnt [(19, 15)] 0; Isnt [(11, 7)] 0];
    Build_region ["rori"; "bclri"; "bexti"; "binvi"; "bseti"; "zext.h"] [];
    Build_region ["prefetch.r"; "prefetch.w"] []];
  ds_extra := [
    Build_region ["mop_rr_0"; "mop_rr_1"; "mop_rr_2"; "mop_rr_3"; "mop_rr_4"; "mop_rr_5"; "mop_rr_6"; "mop_rr_7"] [Isnt [(14, 12)] 4];
    Build_region ["pause"] [Isnt [(14, 12)] 0];
    Build_region ["prefetch_r"; "prefetch_w"] []] |}.

(** Decoder RVM23Inst16. *)
Definition s_RVM23Inst16 : decoder_spec := {| ds_width := 16;
  ds_manual := m_Zca32 ++ m_Zcf ++ m_Zcb ++ m_Zcmp ++ m_Zcmt ++ m_Zcmop ++ m_CZihintntl;
  ds_missing := [
    Build_region ["c.unimp"] [];
    Build_region ["c.nop"] [Isnt [(12, 12); (6, 2)] 0];
    Build_region ["c.addi"] [Is [(12, 12); (6, 2)] 0];
    Build_region ["c.li"; "c.lui"; "c.mv"; "c.slli"] [Is [(11, 7)] 0];
    Build_region ["c.add"] [Is [(11, 7)] 0; Below [(6, 2)] 2];
    Build_region ["c.add"] [Is [(11, 7)] 0; Atleast [(6, 2)] 6]];
  ds_extra := [
    Build_region ["clui"; "caddi16sp"] [Is [(12, 12); (6, 2)] 0]] |}.

(** Decoder ZFH32. *)
Definition s_ZFH32 : decoder_spec := {| ds_width := 32;
  ds_manual := m_Zfh32;
  ds_missing := [];
  ds_extra := [] |}.

(** Decoder ZFH64. *)
Definition s_ZFH64 : decoder_spec := {| ds_width := 32;
  ds_manual := m_Zfh64;
  ds_missing := [];
  ds_extra := [] |}.

(** Decoder ZVBB. *)
Definition s_ZVBB : decoder_spec := {| ds_width := 32;
  ds_manual := m_Zvbb;
  ds_missing := [];
  ds_extra := [] |}.
