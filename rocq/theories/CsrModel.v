(** Model of /repo/riscv/riscv_csr.h and riscv_csr.cc. *)
From Coq Require Import ZArith Bool List String.
From Verif Require Import Bits CsrSpec.
Import ListNotations.
Local Open Scope Z_scope.

(** riscv_csr.h:378-505 class RiscVSimpleCsr<T>: value_, read_mask_, write_mask_;
    [cs_w] is the width of T (32 or 64).  Name, index, targets and operand
    factories are left out: they do not affect the value. *)
Record simple_csr := { cs_w : Z; cs_value : Z; cs_rmask : Z; cs_wmask : Z }.

(** Model only: record update (value_ of riscv_csr.h:420-505). *)
Definition with_value (c : simple_csr) (v : Z) : simple_csr :=
  {| cs_w := cs_w c; cs_value := v; cs_rmask := cs_rmask c; cs_wmask := cs_wmask c |}.

(** riscv_csr.h:465-466 GetUint32/GetUint64; [aw] is the width of the accessor. *)
Definition get_uint (aw : Z) (c : simple_csr) : Z := wrap aw (cs_value c).

(** riscv_csr.h:443-448 AsUint32/AsUint64. *)
Definition as_uint (aw : Z) (c : simple_csr) : Z :=
  wrap aw (Z.land (get_uint aw c) (cs_rmask c)).

(** riscv_csr.h:468-469 Set (both overloads: truncation to T). *)
Definition csr_set (v : Z) (c : simple_csr) : simple_csr := with_value c (wrap (cs_w c) v).

(** riscv_csr.h:450-457 Write(uint32_t)/Write(uint64_t). *)
Definition csr_write (aw v : Z) (c : simple_csr) : simple_csr :=
  let t_value := wrap (cs_w c) v in
  csr_set (Z.lor (Z.land t_value (cs_wmask c))
                 (Z.land (get_uint aw c) (wnot (cs_w c) (cs_wmask c)))) c.

(** riscv_csr.h:459-460 SetBits. *)
Definition csr_set_bits (aw v : Z) (c : simple_csr) : simple_csr :=
  csr_write aw (Z.lor (get_uint aw c) v) c.

(** riscv_csr.h:462-463 ClearBits. *)
Definition csr_clear_bits (aw v : Z) (c : simple_csr) : simple_csr :=
  csr_write aw (Z.land (get_uint aw c) (wnot aw v)) c.

(** riscv_csr.h:492 Reset. *)
Definition csr_reset (c : simple_csr) : simple_csr := csr_set 0 c.

(** One API call with accessor width [aw] (the C++ overload chosen). *)
Definition csr_step (aw : Z) (c : simple_csr) (o : csr_op) : simple_csr :=
  match o with
  | CsrWrite v => csr_write aw (wrap aw v) c
  | CsrSetBits v => csr_set_bits aw (wrap aw v) c
  | CsrClearBits v => csr_clear_bits aw (wrap aw v) c
  end.

(** riscv_csr.cc:31-68 RiscVCsr{Write,ClearBits,SetBits}Db::SetDataBuffer: the
    overload is selected by the size in bytes of the data buffer; any other size
    only logs an error.  The destination operand allocates [size()] bytes
    (riscv_csr.cc:186-207, riscv_csr.h:490). *)
Definition csr_db_step (db_size : Z) (c : simple_csr) (o : csr_op) : simple_csr :=
  if db_size =? 4 then csr_step 32 c o
  else if db_size =? 8 then csr_step 64 c o
  else c.
(** riscv_csr.h: size() is sizeof(T). *)
Definition csr_size (c : simple_csr) : Z := cs_w c / 8.

(** riscv_csr.h:510-594 class RiscVShadowCsr<T> over a RiscVSimpleCsr<T>. *)
Record shadow_csr := { sh_base : simple_csr; sh_rmask : Z; sh_wmask : Z }.
(** Model only: record update (csr_ of riscv_csr.h:510-594). *)
Definition with_base (s : shadow_csr) (b : simple_csr) : shadow_csr :=
  {| sh_base := b; sh_rmask := sh_rmask s; sh_wmask := sh_wmask s |}.

(** riscv_csr.h:533-538 AsUint32/AsUint64. *)
Definition shadow_as_uint (aw : Z) (s : shadow_csr) : Z :=
  wrap aw (Z.land (wrap (cs_w (sh_base s)) (as_uint aw (sh_base s))) (sh_rmask s)).

(** riscv_csr.h:540-551 Write: the argument passed on has type T. *)
Definition shadow_write (aw v : Z) (s : shadow_csr) : shadow_csr :=
  let b := sh_base s in
  if sh_wmask s =? 0 then s
  else with_base s (csr_write (cs_w b)
         (Z.lor (Z.land (wrap (cs_w b) (get_uint aw b)) (wnot (cs_w b) (sh_wmask s)))
                (Z.land (wrap (cs_w b) v) (sh_wmask s))) b).

(** riscv_csr.h:554-558 SetBits/ClearBits via 560-561 GetUint32/64 of the base. *)
Definition shadow_step (aw : Z) (s : shadow_csr) (o : csr_op) : shadow_csr :=
  match o with
  | CsrWrite v => shadow_write aw (wrap aw v) s
  | CsrSetBits v => shadow_write aw (Z.lor (get_uint aw (sh_base s)) (wrap aw v)) s
  | CsrClearBits v => shadow_write aw (Z.land (get_uint aw (sh_base s)) (wnot aw (wrap aw v))) s
  end.

(** A history interleaving accesses through the base and through the shadow. *)
Definition view_step (aw : Z) (s : shadow_csr) (vo : view * csr_op) : shadow_csr :=
  match fst vo with
  | ViaBase => with_base s (csr_step aw (sh_base s) (snd vo))
  | ViaShadow => shadow_step aw s (snd vo)
  end.

(** riscv_csr.h:599-619, riscv_csr.cc:70-117 class RiscVCsrSet: two hash maps.
    Simplification: absl::flat_hash_map is an association list with unique keys;
    the iteration order (never observed here) is dropped. *)
Record csr_set_t := { cm_name : list (string * csr_obj); cm_index : list (Z * csr_obj) }.
(** Construction of RiscVCsrSet. *)
Definition csr_set_empty : csr_set_t := {| cm_name := []; cm_index := [] |}.

(** absl::flat_hash_map::find by name. *)
Definition find_name (n : string) (m : list (string * csr_obj)) : option csr_obj :=
  match find (fun p => String.eqb (fst p) n) m with Some p => Some (snd p) | None => None end.
(** absl::flat_hash_map::find by index. *)
Definition find_index (i : Z) (m : list (Z * csr_obj)) : option csr_obj :=
  match find (fun p => fst p =? i) m with Some p => Some (snd p) | None => None end.

(** riscv_csr.cc:70-117, one method per operation (cited below). *)
Definition csr_set_step (s : csr_set_t) (o : tbl_op) : csr_set_t * tbl_out :=
  match o with
  (* riscv_csr.cc:70-88 AddCsr *)
  | TblAdd None => (s, TInvalid)
  | TblAdd (Some c) =>
      match find_index (co_index c) (cm_index s) with
      | Some _ => (s, TExists)
      | None =>
          match find_name (co_name c) (cm_name s) with
          | Some _ => (s, TExists)
          | None => ({| cm_name := (co_name c, c) :: cm_name s;
                        cm_index := (co_index c, c) :: cm_index s |}, TOk)
          end
      end
  (* riscv_csr.cc:106-117 RemoveCsr; erasing an end() iterator is undefined behaviour *)
  | TblRemove i =>
      match find_index i (cm_index s) with
      | None => (s, TNotFound)
      | Some c =>
          match find_name (co_name c) (cm_name s) with
          | None => (s, TUndefined)
          | Some _ => ({| cm_name := filter (fun p => negb (String.eqb (fst p) (co_name c))) (cm_name s);
                          cm_index := filter (fun p => negb (fst p =? i)) (cm_index s) |}, TOk)
          end
      end
  (* riscv_csr.cc:90-96 GetCsr(name) *)
  | TblGetName n => (s, match find_name n (cm_name s) with Some c => TFound c | None => TNotFound end)
  (* riscv_csr.cc:98-104 GetCsr(index) *)
  | TblGetIndex i => (s, match find_index i (cm_index s) with Some c => TFound c | None => TNotFound end)
  end.
