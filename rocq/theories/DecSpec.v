(** What decoding an instruction word means (C61-C63), after the instruction listings of the RISC-V
    manuals.  Nothing here refers to the model.  An encoding is a list of conditions on bit fields of
    the word. *)
From Coq Require Import ZArith List String.
Import ListNotations.
Local Open Scope string_scope.
Local Open Scope Z_scope.

(** Bits hi..lo of the word, as a number. *)
Definition bits (w : Z) (r : Z * Z) : Z := w / 2 ^ snd r mod 2 ^ (fst r - snd r + 1).
(** Several fields side by side, the first one most significant. *)
Definition fields (w : Z) (rs : list (Z * Z)) : Z :=
  fold_left (fun acc r => acc * 2 ^ (fst r - snd r + 1) + bits w r) rs 0.

Inductive cond :=
  | Is (rs : list (Z * Z)) (v : Z)
  | Isnt (rs : list (Z * Z)) (v : Z)
  | Atleast (rs : list (Z * Z)) (v : Z)
  | Below (rs : list (Z * Z)) (v : Z)
  | Differ (r s : Z * Z).
Definition holds (w : Z) (c : cond) : Prop :=
  match c with
  | Is rs v => fields w rs = v
  | Isnt rs v => fields w rs <> v
  | Atleast rs v => v <= fields w rs
  | Below rs v => fields w rs < v
  | Differ r s => bits w r <> bits w s end.

(** An instruction of a manual: mnemonic, the simulator opcodes that stand for it, encoding. *)
Record entry := ent { mnemonic : string; opcodes : list string; encoding : list cond }.
Definition means (e : entry) (w : Z) : Prop := Forall (holds w) (encoding e).

(** Words singled out for some mnemonics or opcodes. *)
Record region := { rg_names : list string; rg_conds : list cond }.
Definition listed (rgs : list region) (name : string) (w : Z) : Prop :=
  exists g, In g rgs /\ In name (rg_names g) /\ Forall (holds w) (rg_conds g).

(** A decoder: the manual it implements, the instruction words it is known to reject or take for
    something else, and the words it accepts under an opcode the manual does not give them. *)
Record decoder_spec := {
  ds_width : Z;
  ds_manual : list entry;
  ds_missing : list region;
  ds_extra : list region }.

Section Decoder.
  Variable D : decoder_spec.
  (** [accepts w o]: the decoder may return opcode [o] for word [w]. *)
  Variable accepts : Z -> string -> Prop.

  (** One instruction of the manual covers what the decoder does with the word. *)
  Definition covered (w : Z) (o : string) : Prop :=
    exists e, In e (ds_manual D) /\ means e w /\ In o (opcodes e).

  (** The opcodes a word may get stand for one instruction. *)
  Definition unambiguous : Prop := forall w o1 o2, 0 <= w < 2 ^ ds_width D ->
    accepts w o1 -> accepts w o2 ->
    o1 = o2 \/ exists e, In e (ds_manual D) /\ means e w /\ In o1 (opcodes e) /\ In o2 (opcodes e).
  (** The same, outside the listed words. *)
  Definition unambiguous_but : Prop := forall w o1 o2, 0 <= w < 2 ^ ds_width D ->
    accepts w o1 -> accepts w o2 -> ~ listed (ds_extra D) o1 w -> ~ listed (ds_extra D) o2 w ->
    o1 = o2 \/ exists e, In e (ds_manual D) /\ means e w /\ In o1 (opcodes e) /\ In o2 (opcodes e).
  (** Every instruction of the manual is decoded as that instruction, but for the listed words; those
      really are not. *)
  Definition complete_but : Prop := forall w e, 0 <= w < 2 ^ ds_width D ->
    In e (ds_manual D) -> means e w ->
    ((exists o, In o (opcodes e) /\ accepts w o) <-> ~ listed (ds_missing D) (mnemonic e) w).
  (** Every word decoded is that instruction in the manual, but for the listed words; those really
      are not. *)
  Definition sound_but : Prop := forall w o, 0 <= w < 2 ^ ds_width D -> accepts w o ->
    (covered w o <-> ~ listed (ds_extra D) o w).
  (** Without exceptions. *)
  Definition complete : Prop := forall w e, 0 <= w < 2 ^ ds_width D ->
    In e (ds_manual D) -> means e w -> exists o, In o (opcodes e) /\ accepts w o.
  Definition sound : Prop := forall w o, 0 <= w < 2 ^ ds_width D -> accepts w o -> covered w o.
End Decoder.

(** Sanity of the tables: a word has one meaning, except that a manual may give some encodings of an
    instruction a second name (a hint). *)
Definition consistent (D : decoder_spec) : Prop := forall w e1 e2, 0 <= w < 2 ^ ds_width D ->
  In e1 (ds_manual D) -> In e2 (ds_manual D) -> means e1 w -> means e2 w ->
  mnemonic e1 = mnemonic e2 \/
  opcodes e1 <> [] /\ incl (opcodes e1) (opcodes e2) \/ opcodes e2 <> [] /\ incl (opcodes e2) (opcodes e1).
