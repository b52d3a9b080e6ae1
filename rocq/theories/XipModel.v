(** Model of /repo/riscv/riscv_xip_xie.{h,cc}. *)
From Coq Require Import ZArith Bool List.
From Verif Require Import Bits CsrSpec XipSpec.
Import ListNotations.
Local Open Scope Z_scope.

(** riscv_xip_xie.h:47-48, 111-112, 178-179, 233-234 *)
Definition mip_rmask : Z := 0xbbb.
(** riscv_xip_xie.h:47-48, 111-112, 178-179, 233-234. *)
Definition mip_wmask : Z := 0x33b.
(** riscv_xip_xie.h:47-48, 111-112, 178-179, 233-234. *)
Definition sip_rmask : Z := 0xbbb.
(** riscv_xip_xie.h:47-48, 111-112, 178-179, 233-234. *)
Definition sip_wmask : Z := 0x333.
(** riscv_xip_xie.h:47-48, 111-112, 178-179, 233-234. *)
Definition mie_rmask : Z := 0xbbb.
(** riscv_xip_xie.h:47-48, 111-112, 178-179, 233-234. *)
Definition mie_wmask : Z := 0xbbb.
(** riscv_xip_xie.h:47-48, 111-112, 178-179, 233-234. *)
Definition sie_rmask : Z := 0xbbb.
(** riscv_xip_xie.h:47-48, 111-112, 178-179, 233-234. *)
Definition sie_wmask : Z := 0xbbb.

(** riscv_xip_xie.h:43-103: stored value_ and ext_seip_ (0 or 1<<9). *)
Record mip_t := { ip_value : Z; ip_ext : Z }.

(** riscv_xip_xie.cc:41-45 GetUint32/GetUint64. *)
Definition mip_get (w : Z) (m : mip_t) : Z := wrap w (Z.lor (ip_value m) (ip_ext m)).
(** riscv_csr.h:443-448 AsUint32/64 (inherited). *)
Definition mip_as_uint (w : Z) (m : mip_t) : Z := Z.land (mip_get w m) mip_rmask.
(** riscv_xip_xie.cc:31-39 Set; second component: CheckForInterrupt is called. *)
Definition mip_set (v : Z) (m : mip_t) : mip_t * bool :=
  ({| ip_value := wrap 64 v; ip_ext := ip_ext m |}, negb (v =? 0)).
(** riscv_csr.h:450-457 Write (inherited), using the overridden Get/Set. *)
Definition mip_write (w v : Z) (m : mip_t) : mip_t * bool :=
  mip_set (Z.lor (Z.land v mip_wmask) (Z.land (mip_get w m) (wnot 64 mip_wmask))) m.
(** riscv_csr.h:459-463 SetBits/ClearBits. *)
Definition mip_word (w : Z) (o : csr_op) (m : mip_t) : mip_t * bool :=
  match o with
  | CsrWrite v => mip_write w v m
  | CsrSetBits v => mip_write w (Z.lor (mip_get w m) v) m
  | CsrClearBits v => mip_write w (Z.land (mip_get w m) (wnot w v)) m
  end.
(** riscv_xip_xie.h:95-101 SetterHelper<Shift, 1> (set_meip ... set_usip, lines 61-83). *)
Definition mip_setter (shift v : Z) (m : mip_t) : mip_t * bool :=
  mip_set (Z.lor (Z.land (mip_get 64 m) (wnot 64 (Z.shiftl 1 shift))) (Z.shiftl (Z.land v 1) shift)) m.
(** riscv_xip_xie.h:63 set_ext_seip: no CheckForInterrupt. *)
Definition mip_set_ext (v : Z) (m : mip_t) : mip_t :=
  {| ip_value := ip_value m; ip_ext := if v =? 0 then 0 else 2 ^ 9 |}.

(** Model only: dispatch of one operation. *)
Definition ip_step (m : mip_t) (o : ip_op) : mip_t :=
  match o with
  | IpField i v => fst (mip_setter i v m)
  | IpLine v => mip_set_ext v m
  | IpWord w o => fst (mip_word w o m)
  end.
(** What software reads in bit [i] of mip. *)
Definition ip_read (m : mip_t) (i : Z) : bool := Z.testbit (mip_as_uint 64 m) i.

(** ** sip: riscv_xip_xie.cc:48-60, 74-78 *)
Definition sip_get (w mideleg : Z) (m : mip_t) : Z :=
  wrap w (Z.land (mip_get 64 m) (Z.lor mideleg sip_rmask)).
(** riscv_xip_xie.cc:48-60, 74-78. *)
Definition sip_as_uint (w mideleg : Z) (m : mip_t) : Z := Z.land (sip_get w mideleg m) sip_rmask.
(** riscv_xip_xie.cc:48-60, 74-78. *)
Definition sip_set (mideleg v : Z) (m : mip_t) : mip_t * bool :=
  let wmask := Z.lor sip_wmask mideleg in
  mip_set (Z.lor (Z.land (mip_get 64 m) wmask) (Z.land v wmask)) m.
(** riscv_xip_xie.cc:48-60, 74-78. *)
Definition sip_write (w mideleg v : Z) (m : mip_t) : mip_t * bool :=
  sip_set mideleg (Z.lor (Z.land v sip_wmask) (Z.land (sip_get w mideleg m) (wnot 64 sip_wmask))) m.
(** riscv_xip_xie.cc:48-60, 74-78. *)
Definition sip_word (w mideleg : Z) (o : csr_op) (m : mip_t) : mip_t * bool :=
  match o with
  | CsrWrite v => sip_write w mideleg v m
  | CsrSetBits v => sip_write w mideleg (Z.lor (sip_get w mideleg m) v) m
  | CsrClearBits v => sip_write w mideleg (Z.land (sip_get w mideleg m) (wnot w v)) m
  end.

(** ** mie (the state is just the word): riscv_xip_xie.cc:63-72; riscv_csr.h:443-469. *)
Definition mie_set (v e : Z) : Z * bool := (wrap 64 v, negb (v =? 0)).
(** riscv_xip_xie.cc:63-72. *)
Definition mie_write (w v e : Z) : Z * bool :=
  mie_set (Z.lor (Z.land v mie_wmask) (Z.land (wrap w e) (wnot 64 mie_wmask))) e.
(** riscv_xip_xie.cc:63-72. *)
Definition mie_word (w : Z) (o : csr_op) (e : Z) : Z * bool :=
  match o with
  | CsrWrite v => mie_write w v e
  | CsrSetBits v => mie_write w (Z.lor (wrap w e) v) e
  | CsrClearBits v => mie_write w (Z.land (wrap w e) (wnot w v)) e
  end.
(** riscv_xip_xie.cc:63-72. *)
Definition mie_as_uint (w e : Z) : Z := Z.land (wrap w e) mie_rmask.

(** ** sie: riscv_xip_xie.cc:81-97 *)
Definition sie_get (w mideleg e : Z) : Z := wrap w (Z.land e (Z.lor mideleg sie_rmask)).
(** riscv_xip_xie.cc:81-97. *)
Definition sie_as_uint (w mideleg e : Z) : Z := Z.land (sie_get w mideleg e) sie_rmask.
(** riscv_xip_xie.cc:81-97. *)
Definition sie_set (mideleg v e : Z) : Z * bool :=
  let wmask := Z.lor sie_wmask mideleg in
  mie_set (Z.lor (Z.land e wmask) (Z.land v wmask)) e.
(** riscv_xip_xie.cc:81-97. *)
Definition sie_write (w mideleg v e : Z) : Z * bool :=
  sie_set mideleg (Z.lor (Z.land v sie_wmask) (Z.land (sie_get w mideleg e) (wnot 64 sie_wmask))) e.
(** riscv_xip_xie.cc:81-97. *)
Definition sie_word (w mideleg : Z) (o : csr_op) (e : Z) : Z * bool :=
  match o with
  | CsrWrite v => sie_write w mideleg v e
  | CsrSetBits v => sie_write w mideleg (Z.lor (sie_get w mideleg e) v) e
  | CsrClearBits v => sie_write w mideleg (Z.land (sie_get w mideleg e) (wnot w v)) e
  end.
