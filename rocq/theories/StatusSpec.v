(** Specification of the machine status register and its supervisor view
    (properties C04, C05): bit layout of the privileged specification, and the
    behaviour of fields under staged and word-wide updates. *)
From Coq Require Import ZArith Bool List.
From Verif Require Import CsrSpec.
Import ListNotations.
Local Open Scope Z_scope.

(** The settable fields. *)
Inductive sfield :=
| F_TSR | F_TW | F_TVM | F_MXR | F_SUM | F_MPRV | F_XS | F_FS | F_MPP | F_SPP
| F_MPIE | F_SPIE | F_UPIE | F_MIE | F_SIE | F_UIE.

(** Layout in the privileged architecture: (lowest bit, number of bits). *)
Definition layout (f : sfield) : Z * Z :=
  match f with
  | F_UIE => (0, 1) | F_SIE => (1, 1) | F_MIE => (3, 1)
  | F_UPIE => (4, 1) | F_SPIE => (5, 1) | F_MPIE => (7, 1)
  | F_SPP => (8, 1) | F_MPP => (11, 2) | F_FS => (13, 2) | F_XS => (15, 2)
  | F_MPRV => (17, 1) | F_SUM => (18, 1) | F_MXR => (19, 1)
  | F_TVM => (20, 1) | F_TW => (21, 1) | F_TSR => (22, 1)
  end.
Definition off f := fst (layout f).
Definition width f := snd (layout f).
(** The value of field [f] in status word [v]. *)
Definition field_of (f : sfield) (v : Z) : Z := (v / 2 ^ off f) mod 2 ^ width f.

(** Bit [i] belongs to some settable field. *)
Definition in_field (i : Z) (f : sfield) : bool := (off f <=? i) && (i <? off f + width f).

Definition sfield_eqb (f g : sfield) : bool := off f =? off g.

(** Operations. [SetField] stages; [Submit] commits; [Word w o] is an ordinary CSR
    access of width [w]. *)
Inductive status_op :=
| SetField (f : sfield) (v : Z)
| Submit
| Word (w : Z) (o : csr_op).

(** Abstract state: current value of each field, and staged values. *)
Record status_spec := { sp_cur : sfield -> Z; sp_staged : sfield -> option Z }.

(** Staging is ignored for "previous privilege = supervisor" on a hart without
    supervisor mode. *)
Definition ignored (has_s : bool) (f : sfield) (v : Z) : bool :=
  match f with F_MPP => (v =? 1) && negb has_s | _ => false end.

Definition status_spec_step (has_s : bool) (s : status_spec) (o : status_op) : status_spec :=
  match o with
  | SetField f v =>
      if ignored has_s f v then s
      else {| sp_cur := sp_cur s;
              sp_staged := fun g => if sfield_eqb g f then Some (v mod 2 ^ width f) else sp_staged s g |}
  | Submit =>
      {| sp_cur := fun g => match sp_staged s g with Some v => v | None => sp_cur s g end;
         sp_staged := fun _ => None |}
  | Word _ (CsrWrite v) => {| sp_cur := fun g => field_of g v; sp_staged := sp_staged s |}
  | Word _ (CsrSetBits v) =>
      {| sp_cur := fun g => Z.lor (sp_cur s g) (field_of g v); sp_staged := sp_staged s |}
  | Word _ (CsrClearBits v) =>
      {| sp_cur := fun g => Z.ldiff (sp_cur s g) (field_of g v); sp_staged := sp_staged s |}
  end.

(** Arguments the C++ API can carry: uint32_t for fields, 32/64-bit words. *)
Definition status_op_ok (o : status_op) : bool :=
  match o with
  | SetField _ v => (0 <=? v) && (v <? 2 ^ 32)
  | Submit => true
  | Word w (CsrWrite v) | Word w (CsrSetBits v) | Word w (CsrClearBits v) =>
      ((w =? 32) || (w =? 64)) && (0 <=? v) && (v <? 2 ^ w)
  end.

(** ** Supervisor view.  Fields visible and writable in sstatus. *)
Definition s_writable (f : sfield) : bool :=
  match f with
  | F_UIE | F_SIE | F_UPIE | F_SPIE | F_SPP | F_FS | F_XS | F_SUM | F_MXR => true
  | _ => false
  end.
(** Bits of sstatus that software may write. *)
Definition s_write_bit (i : Z) : bool :=
  existsb (fun f => s_writable f && in_field i f)
    [F_UIE; F_SIE; F_UPIE; F_SPIE; F_SPP; F_FS; F_XS; F_SUM; F_MXR].
(** Bits of the 64-bit sstatus that may read non-zero: the writable ones, UXL (33:32)
    and SD (63). *)
Definition s_read_bit (i : Z) : bool :=
  s_write_bit i || (i =? 32) || (i =? 33) || (i =? 63).
