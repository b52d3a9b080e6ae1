(** Specification of executing one F or D computational instruction word (C93): arithmetic, fused multiply-add,
    square root, minimum, maximum, sign injection, comparison, classification, conversion and moves, after the F and
    D chapters of the RISC-V unprivileged manual.  Does not mention the model.  The encodings are those of
    DecManual.v, the values those of FpSpec.v and FarithSpec.v. *)
From Coq Require Import ZArith List String Bool.
From Verif Require Import Bits DecSpec Memory AccessSpec StepSpec IeeeSpec FpSpec FarithSpec.
Import ListNotations.
Local Open Scope string_scope.
Local Open Scope Z_scope.

(** The hart of StepSpec with fcsr: the rounding mode in frm (None: a reserved value) and fflags. *)
Record fhart := { fh : hart; h_frm : option Z; h_flags : Z }.

(** An operation: one of FpSpec.v (result exact or rounded to an integer) or of FarithSpec.v (rounded). *)
Inductive comp := Cf (I : finst) | Ca (I : ainst).

(** The mnemonics common to the two formats; [s]: the suffix. *)
Definition per_format (f : fmt) (s : string) : list (string * comp) :=
  [("fadd." ++ s, Ca (AAdd f)); ("fsub." ++ s, Ca (ASub f)); ("fmul." ++ s, Ca (AMul f)); ("fdiv." ++ s, Ca (ADiv f));
   ("fsqrt." ++ s, Ca (ASqrt f));
   ("fmadd." ++ s, Ca (AFma f false false)); ("fmsub." ++ s, Ca (AFma f false true));
   ("fnmsub." ++ s, Ca (AFma f true false)); ("fnmadd." ++ s, Ca (AFma f true true));
   ("fmin." ++ s, Cf (FMin f)); ("fmax." ++ s, Cf (FMax f));
   ("fsgnj." ++ s, Cf (FSgnj f Copy)); ("fsgnjn." ++ s, Cf (FSgnj f Negate)); ("fsgnjx." ++ s, Cf (FSgnj f FpSpec.Xor));
   ("feq." ++ s, Cf (FEq f)); ("flt." ++ s, Cf (FLt f)); ("fle." ++ s, Cf (FLe f)); ("fclass." ++ s, Cf (FClass f));
   ("fcvt.w." ++ s, Cf (FCvtInt f true 32)); ("fcvt.wu." ++ s, Cf (FCvtInt f false 32));
   ("fcvt." ++ s ++ ".w", Ca (AOfInt f true 32)); ("fcvt." ++ s ++ ".wu", Ca (AOfInt f false 32))].
Definition per_format_64 (f : fmt) (s : string) : list (string * comp) :=
  [("fcvt.l." ++ s, Cf (FCvtInt f true 64)); ("fcvt.lu." ++ s, Cf (FCvtInt f false 64));
   ("fcvt." ++ s ++ ".l", Ca (AOfInt f true 64)); ("fcvt." ++ s ++ ".lu", Ca (AOfInt f false 64))].
Definition instructions (xlen : Z) : list (string * comp) :=
  (per_format single "s" ++ per_format double "d" ++
   [("fmv.x.w", Cf (FMvXF single)); ("fmv.w.x", Cf (FMvFX single));
    ("fcvt.s.d", Ca (ANarrow double single)); ("fcvt.d.s", Cf (FWiden single double))] ++
   if xlen =? 64 then per_format_64 single "s" ++ per_format_64 double "d" ++
                      [("fmv.x.d", Cf (FMvXF double)); ("fmv.d.x", Cf (FMvFX double))]
   else [])%list.

(** The fields of the word: all these instructions share the R and R4 formats. *)
Definition rd_of (w : Z) : Z := bits w (11, 7).
Definition rm_of (w : Z) : Z := bits w (14, 12).
Definition rs1_of (w : Z) : Z := bits w (19, 15).
Definition rs2_of (w : Z) : Z := bits w (24, 20).
Definition rs3_of (w : Z) : Z := bits w (31, 27).

(** rs1 names an x register; rd names an x register; the word has a rounding-mode field. *)
Definition x_source (i : comp) : bool :=
  match i with Cf (FMvFX _) | Ca (AOfInt _ _ _) => true | _ => false end.
Definition x_target (i : comp) : bool :=
  match i with Cf (FEq _ | FLt _ | FLe _ | FClass _ | FCvtInt _ _ _ | FMvXF _) => true | _ => false end.
Definition has_rm (i : comp) : bool :=
  match i with Ca _ | Cf (FCvtInt _ _ _ | FWiden _ _) => true | _ => false end.

(** The rounding mode in force: the field, or frm if the field is 7 (DYN); 5 and 6 are reserved. *)
Definition rounding (frm : option Z) (w : Z) : option Z :=
  if rm_of w =? 7 then frm else if rm_of w <=? 4 then Some (rm_of w) else None.
Definition mode_used (frm : option Z) (w : Z) : Z := match rounding frm w with Some m => m | None => 0 end.
Definition no_rounding (frm : option Z) (w : Z) : bool := match rounding frm w with Some _ => false | None => true end.

(** Destination value [d] and flags raised [fl], for register contents [a], [b], [c]. *)
Definition prescribed (xlen : Z) (i : comp) (mode a b c d fl : Z) : Prop :=
  match i with Cf J => correct xlen J mode a b d fl | Ca J => a_correct J mode a b c d fl end.
Definition arg1 (i : comp) (w : Z) (h : hart) : Z := if x_source i then hx h (rs1_of w) else hf h (rs1_of w).
Definition arg2 (w : Z) (h : hart) : Z := hf h (rs2_of w).
Definition arg3 (w : Z) (h : hart) : Z := hf h (rs3_of w).

Inductive foutcome := FDone (h' : fhart) | FRaise (t : trap_req) (h' : fhart).
Definition f_raises (h : fhart) (t : trap_req) (out : foutcome) : Prop :=
  exists h', out = FRaise t h' /\ unchanged (fh h) (fh h') /\ h_frm h' = h_frm h /\ h_flags h' = h_flags h.

(** Executing the word [w], which encodes [i].  Illegal with FS Off or a reserved rounding mode; otherwise the
    destination is written, the flags are added to fflags, and the pc moves on.  FS becomes Dirty if f registers or
    fcsr change. *)
Definition fp_executes (xlen : Z) (i : comp) (w : Z) (h : fhart) (out : foutcome) : Prop :=
  if (hfs (fh h) =? 0) || (has_rm i && no_rounding (h_frm h) w)
  then f_raises h (illegal (hpc (fh h))) out
  else exists d fl h',
    prescribed xlen i (mode_used (h_frm h) w) (arg1 i w (fh h)) (arg2 w (fh h)) (arg3 w (fh h)) d fl /\
    out = FDone h' /\ h_frm h' = h_frm h /\ h_flags h' = Z.lor (h_flags h) fl /\
    keeps_m (fh h) (fh h') /\ hpc (fh h') = (hpc (fh h) + 4) mod 2 ^ xlen /\
    (if x_target i
     then writes_x (fh h) (fh h') (rd_of w) d /\ (forall n, hf (fh h') n = hf (fh h) n) /\
          (hfs (fh h') = 3 \/ hfs (fh h') = hfs (fh h) /\ h_flags h' = h_flags h)
     else keeps_x (fh h) (fh h') /\ writes_f (fh h) (fh h') (rd_of w) d).

(** The cases in which the simulator is right (see C28-C31, C70-C72 for what happens in the others).  [wide]: the
    calls of fma on floats select the function on double; [wrapv]: signed overflow wraps; [canon]: the value of the
    constant fsgnj.s replaces unboxed operands with.  RMM is right only for conversions to integers. *)
Definition settled (wide wrapv : bool) (canon xlen : Z) (i : comp) (mode a b c : Z) : Prop :=
  match i with
  | Cf (FSgnj f _) => f = single -> canon <> canonical_nan single -> boxed single a = true /\ boxed single b = true
  | Cf (FEq f | FLt f | FLe f) => f = single -> xlen = 32 -> boxed single a = true /\ boxed single b = true
  | Cf (FClass f) => f = single -> xlen = 32 /\ boxed single a = true
  | Cf (FCvtInt f sg w) => boxed f a = true /\ (wrapv = true \/ no_overflow f sg w mode (unbox f a)) /\
      (mode = 4 -> is_finite f (unbox f a) = true -> ~ tie (units f (unbox f a)) (2 ^ quantum f))
  | Cf (FWiden f _) => boxed f a = true /\ is_snan f (unbox f a) = false
  | Cf _ => True
  | Ca (AFma f np na) => mode <= 3 /\
      (f = single -> wide = false /\ boxed single a = true /\ boxed single b = true /\ boxed single c = true) /\
      (f = double -> fma_safe np na mode a b c)
  | Ca (ANarrow f _) => mode <= 3 /\ is_snan f (unbox f a) = false
  | Ca _ => mode <= 3
  end.
