(** Vocabulary of the C47 and C48 statements: observations of a model state, and the histories
    they range over. *)
From Coq Require Import ZArith Bool List.
From Verif Require Import Bits PlicSpec PlicModel.
Import ListNotations.
Local Open Scope Z_scope.

(** Source [s] is enabled for context [c]: its bit in the enable registers is set. *)
Definition enabled (k : plic) (c s : Z) : Prop := Z.testbit (p_en k c (s / 32)) (s mod 32) = true.
(** An interrupt the context could be given: enabled and pending. *)
Definition eligible (k : plic) (c s : Z) : Prop := enabled k c s /\ is_pending k s = true.
(** The operation writes the claim/complete register of context [c]. *)
Definition completes (c : Z) (o : plic_op) : Prop := match o with Store a _ _ => a mod 0x1000000 = a_claim c | _ => False end.
(** Side conditions under which the claims hold: the pending registers are not written; a
    priority is raised from 0 only while the source's gateway is not holding a level; a
    configuration enables each (source, context) pair once. *)
Definition good (k : plic) (o : plic_op) : Prop :=
  match o with
  | Configure _ cs => NoDup (cfg_pairs cs) /\ (forall s c, In (s, c) (cfg_pairs cs) -> 0 <= s /\ ~ enabled k c s) /\
                      Forall (fun e => e = 1) (cfg_enables cs)
  | Store a _ v =>
      let off := a mod 0x1000000 in
      (off < 0x1000 \/ 0x2000 <= off) /\
      (off < 0x1000 -> p_prio k (off / 8) = 0 -> p_gpend k (off / 8) = true -> p_ready k (off / 8) = true -> False)
  | _ => True
  end.
Fixpoint all_good (k : plic) (l : list plic_op) : Prop :=
  match l with
  | [] => True
  | o :: l => good k o /\ match step k o with Some (k1, _) => all_good k1 l | None => True end
  end.

(** States reached by API histories that respect the side conditions. *)
Definition reach (ns nc : Z) (l : list plic_op) (k : plic) : Prop :=
  all_good (init ns nc) l /\ exists vs, run (init ns nc) l = Some (k, vs).
(** What a history returns from its loads, and the final level of a context's line. *)
Definition results (ns nc : Z) (l : list plic_op) : option (list Z) :=
  match run (init ns nc) l with Some (_, vs) => Some vs | None => None end.
Definition final {A} (f : plic -> A) (ns nc : Z) (l : list plic_op) : option A :=
  match run (init ns nc) l with Some (k, _) => Some (f k) | None => None end.
