(** Specification for C47 and C48: the platform-level interrupt controller.  Does not mention
    the model. *)
From Coq Require Import ZArith Bool List.
Import ListNotations.
Local Open Scope Z_scope.

(** The API.  [Configure] takes the already parsed configuration: (source, priority) pairs and
    (context, threshold, (source, enable) list) items. *)
Inductive plic_op :=
| Configure (sources : list (Z * Z)) (contexts : list (Z * Z * list (Z * Z)))
| SetContext (context : Z)
| SetInterrupt (source : Z) (value is_level : bool)
| Load (addr size : Z)
| Store (addr size value : Z).

(** The memory map of the RISC-V PLIC specification. *)
Definition a_priority (source : Z) : Z := 4 * source.
Definition a_pending (word : Z) : Z := 0x1000 + 4 * word.
Definition a_enable (context word : Z) : Z := 0x2000 + 0x80 * context + 4 * word.
Definition a_threshold (context : Z) : Z := 0x200000 + 0x1000 * context.
Definition a_claim (context : Z) : Z := 0x200000 + 0x1000 * context + 4.

(** [best cand prio id]: among the candidates, [id] has the highest priority, and the lowest
    number among those; priority 0 means "never interrupt". *)
Definition best (cand : Z -> Prop) (prio : Z -> Z) (id : Z) : Prop :=
  cand id /\ 0 < prio id /\
  forall s, cand s -> prio s < prio id \/ (prio s = prio id /\ id <= s).
Definition none_eligible (cand : Z -> Prop) (prio : Z -> Z) : Prop := forall s, cand s -> prio s = 0.
(** (source, context) pairs listed in a configuration. *)
Definition cfg_pairs (cs : list (Z * Z * list (Z * Z))) : list (Z * Z) :=
  flat_map (fun e => map (fun it => (fst it, fst (fst e))) (snd e)) cs.
Definition cfg_enables (cs : list (Z * Z * list (Z * Z))) : list Z :=
  flat_map (fun e => map snd (snd e)) cs.
(** The level last presented on the level-triggered input of source [s] by a history. *)
Definition level_after (ns : Z) (s : Z) (l : list plic_op) : bool :=
  fold_left (fun b o => match o with
                        | SetInterrupt s' v true => if (s' =? s) && (0 <=? s') && (s' <? ns) then v else b
                        | _ => b end) l false.
