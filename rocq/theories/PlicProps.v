(** Theorems for C47 and C48. *)
From Coq Require Import ZArith Bool List Lia.
From Verif Require Import Bits PlicSpec PlicModel PlicHist PlicProofs PlicProofs2 PlicProofs3 PlicProofs4.
Import ListNotations.
Local Open Scope Z_scope.

(** C47.  In every state reached by a history that respects [good] (pending registers are not
    written, a priority is not raised from 0 while the source's level is asserted, each
    (source, context) pair is configured once with enable = 1), reading the claim register
    returns the best enabled pending source, or 0 when there is none with a nonzero priority; it
    clears the pending bit of that source and of no other, and changes no priority, threshold
    or enable bit. *)
Theorem plic_claim_best_partial : forall ns nc l k c k' id,
  reach ns nc l k -> ns < 2 ^ 31 -> 0 <= c < nc -> c < 0xe00 ->
  load k (a_claim c) 4 = Some (k', id) ->
  ((id = 0 /\ none_eligible (eligible k c) (p_prio k)) \/ (id <> 0 /\ best (eligible k c) (p_prio k) id)) /\
  (forall s, is_pending k' s = is_pending k s && negb (s =? id)) /\
  p_prio k' = p_prio k /\ p_thr k' = p_thr k /\ p_en k' = p_en k.
Proof. exact claim_main. Qed.
Print Assumptions plic_claim_best_partial.

(** C47: once context c has claimed source s, no context gets s from a claim until c writes its
    completion register. *)
Theorem plic_claim_once_partial : forall ns nc l1 c l2 k k1 k2 s d k3 id,
  ns < 2 ^ 31 -> 0 <= c < nc -> c < 0xe00 -> 0 <= d < nc -> d < 0xe00 ->
  reach ns nc l1 k -> load k (a_claim c) 4 = Some (k1, s) -> s <> 0 ->
  reach ns nc (l1 ++ Load (a_claim c) 4 :: l2) k2 ->
  Forall (fun o => ~ completes c o) l2 ->
  load k2 (a_claim d) 4 = Some (k3, id) -> id <> s.
Proof. exact once_main. Qed.
Print Assumptions plic_claim_once_partial.

(** C47: no pending interrupt disappears except by being handed to a context. *)
Theorem plic_pending_kept_partial : forall ns nc l k o k' v s,
  reach ns nc l k -> good k o -> step k o = Some (k', v) -> is_pending k s = true ->
  is_pending k' s = true \/ exists c, p_cc k' c = s.
Proof. exact kept_main. Qed.
Print Assumptions plic_pending_kept_partial.

(** C47: an interrupt arriving at a ready gateway becomes pending, and raises the line of every
    connected context that enables it with a threshold below its priority. *)
Theorem plic_accept : forall ns nc l k s lvl,
  reach ns nc l k -> 0 < s < ns -> p_ready k s = true -> 0 < p_prio k s ->
  let k' := set_interrupt k s true lvl in
  is_pending k' s = true /\ (forall t, t <> s -> is_pending k' t = is_pending k t) /\
  (forall c, enabled k c s -> p_if k c = true -> p_thr k c < p_prio k s -> p_line k' c = true).
Proof. exact accept_main. Qed.
Print Assumptions plic_accept.

(** C47: completing a claimed source makes it pending again if its level is still asserted, and
    otherwise makes its gateway ready for the next interrupt.  [level_after] is computed from
    the history alone. *)
Theorem plic_complete : forall ns nc l k c s id,
  reach ns nc l k -> ns < 2 ^ 31 -> 0 <= c < nc -> c < 0xe00 ->
  p_cc k c = s -> 0 < s -> s < ns -> enabled k c id -> 0 <= id < 2 ^ 32 ->
  exists k', store k (a_claim c) 4 id = Some k' /\ p_cc k' c = 0 /\
  (if level_after ns s l && (0 <? p_prio k s) then is_pending k' s = true
   else p_ready k' s = true /\ is_pending k' s = false).
Proof. exact complete_main. Qed.
Print Assumptions plic_complete.

(** C47: a claim that leaves nothing eligible lowers the context's line. *)
Theorem plic_line_lowered : forall ns nc l k c k' id,
  reach ns nc l k -> ns < 2 ^ 31 -> 0 <= c < nc -> c < 0xe00 ->
  load k (a_claim c) 4 = Some (k', id) ->
  none_eligible (eligible k' c) (p_prio k') -> p_line k' c = false.
Proof. exact lowered_main. Qed.
Print Assumptions plic_line_lowered.

(** A history that meets the hypotheses: two sources, one level and one edge triggered. *)
Definition ex_l : list plic_op :=
  [Configure [(1, 5); (2, 3)] [(0, 0, [(1, 1); (2, 1)])]; SetContext 0;
   SetInterrupt 1 true true; SetInterrupt 2 true false].
Lemma good_quiet l : forall k, Forall (fun o => match o with Configure _ _ | Store _ _ _ => False | _ => True end) l -> all_good k l.
Proof.
  induction l as [|o l IH]; intros k H; [exact I|]. inversion H; subst. cbn [all_good]. split.
  - destruct o; try contradiction; exact I.
  - destruct (step k o) as [[k1 v]|]; [apply IH; assumption|exact I].
Qed.
Definition ex_k : plic := match run (init 4 2) ex_l with Some (k, _) => k | None => init 4 2 end.
Example plic_reach_example : reach 4 2 ex_l ex_k /\ is_pending ex_k 1 = true /\ is_pending ex_k 2 = true /\ p_line ex_k 0 = true.
Proof.
  split; [|split; [|split]; vm_compute; reflexivity].
  split; [|unfold ex_k; destruct (run (init 4 2) ex_l) as [[k vs]|] eqn:E; [exists vs; reflexivity|]].
  - unfold ex_l. cbn [all_good]. split.
    + split; [|split].
      * cbn. repeat constructor; cbn; intuition congruence.
      * intros s c H. unfold enabled. cbn [init p_en]. rewrite Z.bits_0. cbn in H.
        destruct H as [H|[H|[]]]; inversion H; split; lia || congruence.
      * repeat constructor.
    + destruct (step _ _) as [[k1 v]|]; [|exact I]. apply (good_quiet [SetContext 0; SetInterrupt 1 true true; SetInterrupt 2 true false]). repeat constructor.
  - assert (results 4 2 ex_l <> None) as N by (vm_compute; congruence). unfold results in N. rewrite E in N. congruence.
Qed.
Example plic_claims_example :
  results 4 2 (ex_l ++ [Load (a_claim 0) 4; Load (a_claim 0) 4; SetInterrupt 1 true true; Store (a_claim 0) 4 1; Load (a_claim 0) 4])
  = Some [1; 0; 0; 0; 1; 2; 0; 0; 0].
Proof. vm_compute. reflexivity. Qed.
Example plic_claim_complete_example :
  results 4 2 (ex_l ++ [Load (a_claim 0) 4; Store (a_claim 0) 4 1; Load (a_claim 0) 4; Store (a_claim 0) 4 1; SetInterrupt 1 false true;
                        Load (a_claim 0) 4; Store (a_claim 0) 4 1; Load (a_claim 0) 4])
  = Some [1; 0; 0; 0; 1; 0; 1; 0; 0; 1; 0; 2].
Proof. vm_compute. reflexivity. Qed.

(** C47 is false without the side conditions.  Raising a priority from 0 while the level is
    asserted: two contexts claim source 1, with no completion in between. *)
Theorem plic_claim_once_refuted : exists ns nc l1 l2 v,
  results ns nc (l1 ++ Load (a_claim 0) 4 :: l2 ++ [Load (a_claim 1) 4]) = Some v /\
  Forall (fun o => ~ completes 0 o /\ ~ completes 1 o) l2 /\
  nth (length l1) v 0 = 1 /\ nth (length l1 + 1 + length l2) v 0 = 1.
Proof.
  exists 4, 2, [SetContext 0; SetContext 1; Configure [] [(0, 0, [(1, 1)]); (1, 0, [(1, 1)])]; SetInterrupt 1 true true; Store 8 4 5],
    [SetInterrupt 1 true true]. eexists. split; [vm_compute; reflexivity|]. split; [repeat constructor; cbn; auto|]. split; reflexivity.
Qed.
Print Assumptions plic_claim_once_refuted.
(** C47 is false: a source configured as disabled (enable = 0) is delivered. *)
Theorem plic_configure_disable_refuted : exists v,
  results 4 1 [SetContext 0; Configure [(1, 5)] [(0, 0, [(1, 0)])]; SetInterrupt 1 true false; Load (a_claim 0) 4] = Some v /\ nth 3 v 0 = 1.
Proof. eexists. split; [vm_compute; reflexivity|reflexivity]. Qed.
Print Assumptions plic_configure_disable_refuted.
(** C47 is false: an interrupt is lost after nested claims, although both are completed; the
    gateway of source 1 never accepts another one. *)
Theorem plic_nested_claims_refuted : exists v,
  results 4 1 [Configure [(1, 5); (2, 3)] [(0, 0, [(1, 1); (2, 1)])]; SetContext 0; SetInterrupt 2 true false; Load (a_claim 0) 4;
               SetInterrupt 1 true false; Load (a_claim 0) 4; Store (a_claim 0) 4 1; Store (a_claim 0) 4 2;
               SetInterrupt 2 true false; Load (a_claim 0) 4] = Some v /\
  nth 3 v 0 = 2 /\ nth 5 v 0 = 1 /\ nth 9 v 0 = 0.
Proof. eexists. split; [vm_compute; reflexivity|repeat split]. Qed.
Print Assumptions plic_nested_claims_refuted.
(** C47 is false of the line: after a claim the line is low although an enabled interrupt above
    the threshold is still pending ... *)
Theorem plic_line_low_refuted : exists l s c,
  final (fun k => p_line k c) 4 2 l = Some false /\ final (fun k => is_pending k s) 4 2 l = Some true /\
  final (fun k => Z.testbit (p_en k c 0) s) 4 2 l = Some true /\ final (fun k => p_if k c) 4 2 l = Some true /\
  final (fun k => p_thr k c <? p_prio k s) 4 2 l = Some true.
Proof. exists (ex_l ++ [Load (a_claim 0) 4]), 2, 0. repeat split; vm_compute; reflexivity. Qed.
Print Assumptions plic_line_low_refuted.
(** ... and enabling a source raises the line with nothing pending. *)
Theorem plic_line_high_refuted : exists l c,
  final (fun k => p_line k c) 4 2 l = Some true /\ final (fun k => existsb (is_pending k) [0; 1; 2; 3]) 4 2 l = Some false.
Proof. exists [SetContext 0; Configure [(1, 5)] []; Store (a_enable 0 0) 4 2], 0. repeat split; vm_compute; reflexivity. Qed.
Print Assumptions plic_line_high_refuted.

(** C48.  Threshold registers behave. *)
Theorem plic_threshold_register : forall k c v k', 0 <= c < p_nc k -> c < 0xe00 -> 0 <= v < 2 ^ 32 ->
  store k (a_threshold c) 4 v = Some k' ->
  load k' (a_threshold c) 4 = Some (k', v) /\ (forall d, d <> c -> p_thr k' d = p_thr k d) /\
  p_prio k' = p_prio k /\ p_pend k' = p_pend k /\ p_en k' = p_en k /\ p_cc k' = p_cc k.
Proof. exact threshold_main. Qed.
Print Assumptions plic_threshold_register.
Example plic_threshold_example : results 40 2 [Store (a_threshold 1) 4 7; Load (a_threshold 1) 4; Load (a_threshold 0) 4] = Some [0; 7; 0].
Proof. vm_compute. reflexivity. Qed.
(** C48 for priorities is false at the address of the specification ... *)
Theorem plic_priority_register_refuted : exists v,
  results 40 2 [Store (a_priority 2) 4 7; Load (a_priority 2) 4; Load (a_priority 1) 4] = Some v /\ nth 1 v 0 <> 7 /\ nth 2 v 0 = 7.
Proof. eexists. split; [vm_compute; reflexivity|]. cbn. split; [lia|reflexivity]. Qed.
Print Assumptions plic_priority_register_refuted.
(** ... what the code does instead: a write at 8 s sets what a read at 4 s returns. *)
Theorem plic_priority_register_partial : forall k s v, 0 <= s < p_ns k -> 8 * s < 0x1000 -> 0 <= v < 2 ^ 32 ->
  exists k', store k (8 * s) 4 v = Some k' /\
  load k' (a_priority s) 4 = Some (k', v) /\ (forall t, t <> s -> p_prio k' t = p_prio k t) /\
  p_thr k' = p_thr k /\ p_en k' = p_en k /\ p_cc k' = p_cc k.
Proof. exact priority_main. Qed.
Print Assumptions plic_priority_register_partial.
(** Reading the priority register of a source that does not exist is an access out of bounds,
    although writing it is checked. *)
Theorem plic_priority_bounds_refuted : exists s, 4 * s < 0x1000 /\ results 40 2 [Load (a_priority s) 4] = None.
Proof. exists 40. split; [reflexivity|vm_compute; reflexivity]. Qed.
Print Assumptions plic_priority_bounds_refuted.
(** C48 for enables is false: the second enable word of context 0 cannot be written at its
    address (word 0 is written instead), and reading it does not return it. *)
Theorem plic_enable_register_refuted : exists v,
  results 200 2 [Store (a_enable 0 1) 4 2; Load (a_enable 0 1) 4; Load (a_enable 0 0) 4] = Some v /\ nth 1 v 0 <> 2 /\ nth 2 v 0 = 2.
Proof. eexists. split; [vm_compute; reflexivity|]. cbn. split; [lia|reflexivity]. Qed.
Print Assumptions plic_enable_register_refuted.
(** The first enable word of context 1 is written into context 0, out of bounds when it has
    too few words. *)
Theorem plic_enable_context_refuted : exists v,
  results 400 2 [Store (a_enable 1 0) 4 2; Load (a_enable 1 0) 4; Load (0x2000 + 8) 4] = Some v /\ nth 1 v 0 <> 2 /\ nth 2 v 0 = 2 /\
  results 64 2 [Store (a_enable 1 0) 4 2] = None.
Proof. eexists. split; [vm_compute; reflexivity|]. cbn [nth]. repeat split; lia || vm_compute; reflexivity. Qed.
Print Assumptions plic_enable_context_refuted.
(** What the code does: word w of context c is written at 0x2000 + 0x200 c + 0x10 w and read at
    0x2000 + 0x80 c + w. *)
Theorem plic_enable_register_partial : forall ns nc l k c w v k',
  reach ns nc l k -> 0 <= c < nc -> 0 <= w < 32 -> 32 * w < ns + 32 -> 0x200 * c + 0x2200 <= 0x200000 -> 0 <= v < 2 ^ 32 ->
  store k (0x2000 + 0x200 * c + 0x10 * w) 4 v = Some k' ->
  load k' (0x2000 + 0x80 * c + w) 4 = Some (k', v) /\ (forall d x, (d, x) <> (c, w) -> p_en k' d x = p_en k d x) /\
  p_prio k' = p_prio k /\ p_pend k' = p_pend k /\ p_thr k' = p_thr k /\ p_cc k' = p_cc k.
Proof. exact enable_main. Qed.
Print Assumptions plic_enable_register_partial.
Example plic_enable_example : results 64 2 [Store (0x2000 + 0x200 + 0x10) 4 2; Load (0x2000 + 0x80 + 1) 4; Store 8 4 3; Load 4 4] = Some [0; 2; 0; 3].
Proof. vm_compute. reflexivity. Qed.
(** C48: the pending bit of source 32 is not visible in the second pending word. *)
Theorem plic_pending_register_refuted : exists v,
  results 200 1 [Configure [(32, 1)] []; SetInterrupt 32 true false; Load (a_pending 1) 4; Load (0x1000 + 1) 4] = Some v /\
  nth 2 v 0 = 0 /\ nth 3 v 0 = 1.
Proof. eexists. split; [vm_compute; reflexivity|split; reflexivity]. Qed.
Print Assumptions plic_pending_register_refuted.
(** C48: an 8-byte store drops its upper half. *)
Theorem plic_store64_refuted : exists v,
  results 40 1 [Store 0 8 (2 + 2 ^ 32 * 9); Load 0 8] = Some v /\ nth 1 v 0 <> 2 + 2 ^ 32 * 9.
Proof. eexists. split; [vm_compute; reflexivity|]. cbn. lia. Qed.
Print Assumptions plic_store64_refuted.
