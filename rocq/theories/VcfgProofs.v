(** Proofs for C35 and C43. *)
From Coq Require Import ZArith Bool List Lia.
From Verif Require Import Bits VcfgSpec VcfgModel.
Import ListNotations.
Local Open Scope Z_scope.

(** The fields that [set_vector_type] derives from vtype. *)
Definition derived (s : vcfg) : Prop :=
  lmul8 s = nth (Z.to_nat (Z.land (vtype s) 7)) lmul8_values 0 /\
  sew s = Z.shiftr (nth (Z.to_nat (Z.land (Z.shiftr (vtype s) 3) 7)) sew_values 0) 3 /\
  8 * sew s <> 0 /\
  vlmax s = Z.quot (vlenb s * lmul8 s) (8 * sew s).

Lemma svt_derived s t s' : set_vector_type s t = Some s' -> derived s' /\ vtype s' = t /\ vlenb s' = vlenb s
  /\ vl s' = vl s /\ vstart s' = vstart s /\ vxsat s' = vxsat s /\ vxrm s' = vxrm s /\ vexc s' = vexc s
  /\ stored s' = stored s.
Proof.
  unfold set_vector_type, derived. destruct (Z.eqb_spec (8 * Z.shiftr (nth (Z.to_nat (Z.land (Z.shiftr t 3) 7)) sew_values 0) 3) 0) as [E|E]; [discriminate|].
  intros [= <-]. cbn [lmul8 vtype sew vlmax vlenb vl vstart vxsat vxrm vexc stored]. auto 12.
Qed.

Lemma land7 x : Z.land x 7 = x mod 8.
Proof. change 7 with (Z.ones 3). rewrite Z.land_ones by lia. reflexivity. Qed.
Lemma land3 x : Z.land x 3 = x mod 4.
Proof. change 3 with (Z.ones 2) at 1. rewrite Z.land_ones by lia. reflexivity. Qed.
Lemma land1 x : Z.land x 1 = x mod 2.
Proof. change 1 with (Z.ones 1) at 1. rewrite Z.land_ones by lia. reflexivity. Qed.
Lemma land255 x : Z.land x 255 = x mod 256.
Proof. change 255 with (Z.ones 8) at 1. rewrite Z.land_ones by lia. reflexivity. Qed.
Lemma shr3 x : Z.shiftr x 3 = x / 8.
Proof. rewrite Z.shiftr_div_pow2 by lia. reflexivity. Qed.

Definition lm_ok (t : Z) : bool :=
  let lm := nth (Z.to_nat (t mod 8)) lmul8_values 0 in
  if t mod 8 =? 4 then lm =? 0 else
  if 0 <=? sgn 3 (t mod 8) then lm =? 8 * 2 ^ sgn 3 (t mod 8) else lm * 2 ^ (- sgn 3 (t mod 8)) =? 8.
Lemma lm_table t : lm_ok t = true.
Proof.
  pose proof (Z.mod_pos_bound t 8 ltac:(lia)) as B. unfold lm_ok.
  assert (t mod 8 = 0 \/ t mod 8 = 1 \/ t mod 8 = 2 \/ t mod 8 = 3 \/ t mod 8 = 4 \/ t mod 8 = 5 \/ t mod 8 = 6 \/ t mod 8 = 7) as E by lia.
  repeat (destruct E as [E|E]; [rewrite E; reflexivity|]). rewrite E; reflexivity.
Qed.
Lemma sw_table k : 0 <= k < 8 -> Z.shiftr (nth (Z.to_nat k) sew_values 0) 3 = if k <? 4 then 2 ^ k else 0.
Proof.
  intros B. assert (k = 0 \/ k = 1 \/ k = 2 \/ k = 3 \/ k = 4 \/ k = 5 \/ k = 6 \/ k = 7) as E by lia.
  repeat (destruct E as [->|E]; [reflexivity|]). rewrite E; reflexivity.
Qed.

Lemma derived_sew s : derived s -> sew s = 2 ^ vsew (vtype s) /\ vsew (vtype s) < 4.
Proof.
  intros (_ & Hs & Hn & _). rewrite land7, (shr3 (vtype s)) in Hs. fold (vsew (vtype s)) in Hs.
  assert (0 <= vsew (vtype s) < 8) as B by (unfold vsew; apply Z.mod_pos_bound; lia).
  rewrite sw_table in Hs by exact B. destruct (Z.ltb_spec (vsew (vtype s)) 4); [auto|lia].
Qed.

Lemma lmul8_cases s : derived s ->
  (vlmul (vtype s) = 4 /\ lmul8 s = 0) \/
  (vlmul (vtype s) <> 4 /\ 0 <= sgn 3 (vlmul (vtype s)) /\ lmul8 s = 8 * 2 ^ sgn 3 (vlmul (vtype s))) \/
  (vlmul (vtype s) <> 4 /\ sgn 3 (vlmul (vtype s)) < 0 /\ lmul8 s * 2 ^ (- sgn 3 (vlmul (vtype s))) = 8).
Proof.
  intros (H & _). rewrite land7 in H. fold (vlmul (vtype s)) in H.
  pose proof (lm_table (vtype s)) as T. unfold lm_ok in T. fold (vlmul (vtype s)) in T. rewrite <- H in T.
  destruct (Z.eqb_spec (vlmul (vtype s)) 4) as [E|E].
  - left. split; [exact E|]. apply Z.eqb_eq; exact T.
  - right. destruct (Z.leb_spec 0 (sgn 3 (vlmul (vtype s)))); [left|right]; (split; [exact E|split; [assumption|]]; apply Z.eqb_eq; exact T).
Qed.

Lemma vlmax_spec s : derived s -> 0 <= vlenb s -> vlmul (vtype s) <> 4 -> vlmax s = VLMAX (vlenb s) (vtype s).
Proof.
  intros D Hv Hl. destruct (derived_sew s D) as [Hs Hlt]. pose proof (lmul8_cases s D) as C.
  destruct D as (_ & _ & _ & ->). unfold VLMAX.
  assert (0 <= vsew (vtype s)) as B by (unfold vsew; apply Z.mod_pos_bound; lia).
  set (k := vsew (vtype s)) in *. set (l := sgn 3 (vlmul (vtype s))) in *. clearbody k l.
  pose proof (pow2_pos k B) as P. rewrite Hs.
  destruct C as [[C _]|[(_ & L & C)|(_ & L & C)]]; [contradiction| |].
  - rewrite C. destruct (Z.leb_spec 0 l); [|lia]. pose proof (pow2_pos l L).
    rewrite Z.quot_div_nonneg by nia. f_equal; lia.
  - destruct (Z.leb_spec 0 l); [lia|]. pose proof (pow2_pos (- l) ltac:(lia)) as Q.
    assert (0 <= lmul8 s) by nia.
    rewrite Z.quot_div_nonneg by nia.
    rewrite <- (Z.div_mul_cancel_r (vlenb s * lmul8 s) (8 * 2 ^ k) (2 ^ (- l))) by lia.
    f_equal; nia.
Qed.
Lemma vlmax_le s : derived s -> 0 <= vlenb s -> 0 <= vlmax s <= VLMAX (vlenb s) (vtype s).
Proof.
  intros D Hv. destruct (Z.eq_dec (vlmul (vtype s)) 4) as [E|E].
  - pose proof (lmul8_cases s D) as C. destruct (derived_sew s D) as [Hs _].
    destruct C as [[_ C]|[(C & _)|(C & _)]]; try contradiction.
    destruct D as (_ & _ & _ & ->). rewrite C, Z.mul_0_r.
    assert (0 <= vsew (vtype s)) as B by (unfold vsew; apply Z.mod_pos_bound; lia).
    pose proof (pow2_pos _ B). rewrite Z.quot_0_l by lia. unfold VLMAX. rewrite E.
    change (sgn 3 4) with (-4). cbn [Z.leb Z.compare]. split; [lia|]. apply Z.div_pos; nia.
  - rewrite (vlmax_spec s D Hv E). split; [|lia]. unfold VLMAX.
    assert (0 <= vsew (vtype s)) as B by (unfold vsew; apply Z.mod_pos_bound; lia).
    pose proof (pow2_pos _ B).
    destruct (Z.leb_spec 0 (sgn 3 (vlmul (vtype s)))) as [L|L].
    + pose proof (pow2_pos _ L). apply Z.div_pos; nia.
    + pose proof (pow2_pos (- sgn 3 (vlmul (vtype s))) ltac:(lia)). apply Z.div_pos; nia.
Qed.
Lemma VLMAX_bound v t : 0 <= v <= 8192 -> 0 <= VLMAX v t <= 65536.
Proof.
  intros Hv. unfold VLMAX.
  assert (0 <= vsew t) as B by (unfold vsew; apply Z.mod_pos_bound; lia).
  pose proof (pow2_pos _ B). pose proof (sgn_range 3 (vlmul t) ltac:(lia)) as R. cbn in R.
  set (k := 2 ^ vsew t) in *. clearbody k.
  destruct (Z.leb_spec 0 (sgn 3 (vlmul t))) as [L|L].
  - assert (1 <= 2 ^ sgn 3 (vlmul t) <= 8) as Q.
    { split; [pose proof (pow2_pos _ L); lia|]. change 8 with (2 ^ 3). apply Z.pow_le_mono_r; lia. }
    split; [apply Z.div_pos; nia|]. apply Z.div_le_upper_bound; nia.
  - pose proof (pow2_pos (- sgn 3 (vlmul t)) ltac:(lia)). split; [apply Z.div_pos; nia|].
    apply Z.div_le_upper_bound; nia.
Qed.

Lemma svt_some s t : vsew t < 4 -> exists s', set_vector_type s t = Some s'.
Proof.
  intros H. unfold set_vector_type. rewrite (land7 (Z.shiftr t 3)), (shr3 t). fold (vsew t).
  assert (0 <= vsew t < 8) as B by (unfold vsew; apply Z.mod_pos_bound; lia).
  rewrite sw_table by exact B. destruct (Z.ltb_spec (vsew t) 4); [|lia].
  pose proof (pow2_pos (vsew t) ltac:(lia)). destruct (Z.eqb_spec (8 * 2 ^ vsew t) 0); [lia|]. eauto.
Qed.
Lemma svt_none s t : 4 <= vsew t -> set_vector_type s t = None.
Proof.
  intros H. unfold set_vector_type. rewrite (land7 (Z.shiftr t 3)), (shr3 t). fold (vsew t).
  assert (0 <= vsew t < 8) as B by (unfold vsew; apply Z.mod_pos_bound; lia).
  rewrite sw_table by exact B. destruct (Z.ltb_spec (vsew t) 4); [lia|]. reflexivity.
Qed.
Lemma operand_ok t : supported t -> Z.land (wrap 32 t) 255 = t.
Proof.
  intros (B & _). rewrite land255. unfold wrap. rewrite (Z.mod_small t (2 ^ 32)) by lia.
  apply Z.mod_small; lia.
Qed.

(** vset with rs1 or rd not x0. *)
Lemma vset_main s rd0 rs0 a t : 0 <= vlenb s <= 8192 -> supported t -> (rd0 = true -> rs0 = false) ->
  0 <= a < 2 ^ 32 ->
  exists s' r, vsetvl s rd0 rs0 a t = Some (s', r) /\
    vl s' = new_vl (vlenb s) rd0 rs0 a t (vl s) /\ r = (if rd0 then None else Some (vl s')) /\
    vtype s' = t /\ sew s' = 2 ^ vsew t /\ vlmax s' = VLMAX (vlenb s) t /\ derived s' /\
    vlenb s' = vlenb s /\ stored s' = stored s /\
    vstart s' = vstart s /\ vxsat s' = vxsat s /\ vxrm s' = vxrm s /\ vexc s' = vexc s.
Proof.
  intros Hv Ht Hz Ha. unfold vsetvl. rewrite (operand_ok t Ht).
  destruct (svt_some s t) as [s1 E]; [apply Ht|]. rewrite E.
  destruct (svt_derived _ _ _ E) as (D & T & V & L & R).
  assert (vlmax s1 = VLMAX (vlenb s) t) as M.
  { rewrite vlmax_spec; [rewrite V, T; reflexivity|exact D|lia|rewrite T; apply Ht]. }
  pose proof (VLMAX_bound (vlenb s) t Hv) as B.
  assert (rs0 && rd0 = false) as -> by (destruct rd0, rs0; try reflexivity; specialize (Hz eq_refl); discriminate).
  rewrite M. rewrite (wrap_id 32 a) by exact Ha. rewrite (wrap_id 32 (VLMAX (vlenb s) t)) by (unfold inw; lia).
  assert ((if negb rs0 && (a <=? VLMAX (vlenb s) t) then a else VLMAX (vlenb s) t)
          = new_vl (vlenb s) rd0 rs0 a t (vl s)) as N.
  { unfold new_vl. destruct rs0; cbn [negb andb].
    - destruct rd0; [specialize (Hz eq_refl); discriminate|reflexivity].
    - destruct (Z.leb_spec a (VLMAX (vlenb s) t)); lia. }
  rewrite N.
  assert (0 <= new_vl (vlenb s) rd0 rs0 a t (vl s) <= 65536) as NB.
  { rewrite <- N. destruct (Z.leb_spec a (VLMAX (vlenb s) t)), rs0; cbn [negb andb]; lia. }
  assert (sgn 32 (new_vl (vlenb s) rd0 rs0 a t (vl s)) = new_vl (vlenb s) rd0 rs0 a t (vl s)) as ->.
  { apply sgn_id; cbn; lia. }
  destruct (derived_sew s1 D) as [SW _]. rewrite T in SW.
  eexists _, _. split; [reflexivity|]. unfold derived in *.
  cbn [set_vl vl vtype sew vlmax vlenb stored vstart vxsat vxrm vexc lmul8].
  intuition congruence.
Qed.

(** vset with rs1 = rd = x0. *)
Lemma vset_zz s a t : 0 <= vlenb s <= 8192 -> supported t -> derived s ->
  exists s', vsetvl s true true a t = Some (s', None) /\ vlenb s' = vlenb s /\ stored s' = stored s /\
    vstart s' = vstart s /\ vxsat s' = vxsat s /\ vxrm s' = vxrm s /\
    (if VLMAX (vlenb s) t =? vlmax s
     then vl s' = VLMAX (vlenb s) t /\ vtype s' = t /\ vexc s' = vexc s
     else vl s' = vl s /\ vtype s' = vtype s /\ vlmax s' = vlmax s /\ vexc s' = true).
Proof.
  intros Hv Ht Hd. unfold vsetvl. rewrite (operand_ok t Ht).
  destruct (svt_some s t) as [s1 E]; [apply Ht|]. rewrite E.
  destruct (svt_derived _ _ _ E) as (D & T & V & L & R).
  assert (vlmax s1 = VLMAX (vlenb s) t) as M.
  { rewrite vlmax_spec; [rewrite V, T; reflexivity|exact D|lia|rewrite T; apply Ht]. }
  cbn [andb]. rewrite M, (Z.eqb_sym (vlmax s)).
  destruct (Z.eqb_spec (VLMAX (vlenb s) t) (vlmax s)) as [Q|Q]; cbn [negb].
  - eexists. split; [reflexivity|]. cbn [set_vl vl vtype vlenb stored vstart vxsat vxrm vexc]. intuition congruence.
  - destruct (svt_some s1 (vtype s)) as [s2 E2]; [apply derived_sew; exact Hd|]. rewrite E2.
    destruct (svt_derived _ _ _ E2) as (D2 & T2 & V2 & L2 & R2).
    eexists. split; [reflexivity|]. cbn [set_vexc vl vtype vlenb stored vstart vxsat vxrm vexc vlmax].
    assert (vlmax s2 = vlmax s) as X.
    { destruct D2 as (A2 & B2 & _ & ->), Hd as (A & B & _ & ->). rewrite A2, B2, A, B, T2. congruence. }
    intuition congruence.
Qed.

(** Invariant of a history. *)
Definition inv (s : vcfg) : Prop :=
  0 <= vlenb s <= 8192 /\ 0 <= vl s /\ (vl s = 0 \/ (derived s /\ vl s <= vlmax s)) /\
  0 <= vxrm s < 4 /\ (forall c, stored s c = match c with Cvlenb => vlenb s | _ => 0 end).

Lemma derived_le s : derived s -> 0 <= vlenb s <= 8192 -> 0 <= vlmax s <= 65536.
Proof. intros D H. pose proof (vlmax_le s D ltac:(lia)). pose proof (VLMAX_bound (vlenb s) (vtype s) H). lia. Qed.

Lemma init_inv b t0 : 0 <= b <= 8192 -> inv (init b t0).
Proof. intros H. unfold inv. cbn [init vlenb vl vxrm stored]. repeat split; try lia. Qed.

Lemma wr_mask x b : x = b -> 0 <= b <= 8192 -> Z.lor (Z.land (wrap 32 0) 0) (Z.land x (wnot 32 0)) = b.
Proof.
  intros -> H. rewrite Z.land_0_r, Z.lor_0_l. change (wnot 32 0) with (Z.ones 32).
  rewrite Z.land_ones by lia. apply Z.mod_small; lia.
Qed.
Lemma write_inv s c v : inv s -> inv (write s c v) /\ vl (write s c v) = vl s /\ vtype (write s c v) = vtype s
  /\ vlenb (write s c v) = vlenb s /\ (forall d, stored (write s c v) d = stored s d).
Proof.
  intros (A & B & C & D & F).
  assert (forall d, stored (write s c v) d = stored s d) as G.
  { destruct c; cbn [write set_stored set_vstart set_vxsat set_vxrm stored]; intros d; try reflexivity;
    (destruct d; try reflexivity);
    rewrite Z.land_0_r, Z.lor_0_l; change (wnot 32 0) with (Z.ones 32); rewrite Z.land_ones by lia;
    rewrite F; apply Z.mod_small; lia. }
  split; [|split; [destruct c; reflexivity|split; [destruct c; reflexivity|split; [destruct c; reflexivity|exact G]]]].
  unfold inv. 
  replace (vlenb (write s c v)) with (vlenb s) by (destruct c; reflexivity).
  replace (vl (write s c v)) with (vl s) by (destruct c; reflexivity).
  split; [exact A|split; [exact B|split; [|split; [|intros d; rewrite G; apply F]]]].
  - destruct C as [C|[C C']]; [left; exact C|right]. split; [|destruct c; exact C'].
    unfold derived in *. destruct c; exact C.
  - destruct c; cbn [write set_stored set_vstart set_vxsat set_vxrm vxrm]; try exact D;
      rewrite !land3; apply Z.mod_pos_bound; lia.
Qed.

Lemma vsetvl_inv s rd0 rs0 a t s' r : inv s -> vsetvl s rd0 rs0 a t = Some (s', r) -> inv s'.
Proof.
  intros (A & B & C & X & F). unfold vsetvl. set (t' := Z.land (wrap 32 t) 255).
  destruct (set_vector_type s t') as [s1|] eqn:E; [|discriminate].
  destruct (svt_derived _ _ _ E) as (D & T & V & L & R1 & R2 & R3 & R4 & R5).
  pose proof (derived_le s1 D ltac:(lia)) as M.
  destruct (rs0 && rd0) eqn:Z0.
  - destruct (Z.eqb_spec (vlmax s) (vlmax s1)) as [Q|Q]; cbn [negb].
    + intros [= <- <-]. unfold inv. cbn [set_vl vl vlmax vlenb vxrm stored].
      rewrite R5, V, R3. split; [exact A|split; [lia|split; [|split; [exact X|exact F]]]].
      right. split; [exact D|lia].
    + destruct (set_vector_type s1 (vtype s)) as [s2|] eqn:E2; [|discriminate].
      intros [= <- <-]. destruct (svt_derived _ _ _ E2) as (D2 & T2 & V2 & L2 & U1 & U2 & U3 & U4 & U5).
      unfold inv. cbn [set_vexc vl vlmax vlenb vxrm stored].
      rewrite U5, R5, V2, V, L2, L, U3, R3. split; [exact A|split; [exact B|split; [|split; [exact X|exact F]]]].
      destruct C as [C|[C C']]; [left; exact C|right]. split; [exact D2|].
      assert (vlmax s2 = vlmax s) as Y.
      { destruct D2 as (A2 & B2 & _ & ->), C as (A0 & B0 & _ & ->). rewrite A2, B2, A0, B0, T2. congruence. }
      lia.
  - intros [= <- <-]. unfold inv. cbn [set_vl vl vlmax vlenb vxrm stored].
    rewrite R5, V, R3. rewrite (wrap_id 32 (vlmax s1)) by (unfold inw; lia).
    pose proof (wrap_range 32 a ltac:(lia)) as W. unfold inw in W.
    assert (0 <= (if negb rs0 && (wrap 32 a <=? vlmax s1) then wrap 32 a else vlmax s1) <= vlmax s1) as N.
    { destruct (Z.leb_spec (wrap 32 a) (vlmax s1)), rs0; cbn [negb andb]; lia. }
    rewrite sgn_id by (cbn; lia).
    split; [exact A|split; [lia|split; [|split; [exact X|exact F]]]]. right. split; [exact D|lia].
Qed.

Lemma step_inv s o s' r : inv s -> step s o = Some (s', r) -> inv s'.
Proof.
  intros I. destruct o; cbn [step].
  - apply vsetvl_inv; exact I.
  - intros [= <- <-]. apply write_inv; exact I.
  - intros [= <- <-]. apply write_inv; exact I.
  - intros [= <- <-]. apply write_inv; exact I.
  - intros [= <- <-]. exact I.
  - intros [= <- <-]. exact I.
Qed.
Lemma run_inv l : forall s s', inv s -> run s l = Some s' -> inv s'.
Proof.
  induction l as [|o l IH]; intros s s' I; cbn [run]; [intros [= <-]; exact I|].
  destruct (step s o) as [[s1 r]|] eqn:E; [|discriminate]. apply IH. eapply step_inv; eauto.
Qed.
Lemma step_vlenb s o s' r : step s o = Some (s', r) -> vlenb s' = vlenb s.
Proof.
  destruct o; cbn [step]; try (intros [= <- <-]; try destruct c; reflexivity).
  unfold vsetvl. destruct (set_vector_type s _) as [s1|] eqn:E; [|discriminate].
  destruct (svt_derived _ _ _ E) as (_ & _ & V & _).
  destruct (_ && _); [|intros [= <- <-]; exact V]. destruct (negb _); [|intros [= <- <-]; exact V].
  destruct (set_vector_type s1 _) as [s2|] eqn:E2; [|discriminate].
  destruct (svt_derived _ _ _ E2) as (_ & _ & V2 & _). intros [= <- <-]. cbn [set_vexc vlenb]. congruence.
Qed.
Lemma run_vlenb l : forall s s', run s l = Some s' -> vlenb s' = vlenb s.
Proof.
  induction l as [|o l IH]; intros s s'; cbn [run]; [intros [= <-]; reflexivity|].
  destruct (step s o) as [[s1 r]|] eqn:E; [|discriminate]. intros H. rewrite (IH _ _ H). eapply step_vlenb; eauto.
Qed.

Lemma inv_vl s : inv s -> 0 <= vl s <= VLMAX (vlenb s) (vtype s).
Proof.
  intros (A & B & C & _). pose proof (VLMAX_bound (vlenb s) (vtype s) A).
  destruct C as [C|[C C']]; [lia|]. pose proof (vlmax_le s C ltac:(lia)). lia.
Qed.
Lemma run_vl b t0 l s : 0 <= b <= 8192 -> run (init b t0) l = Some s ->
  0 <= read s Cvl <= VLMAX b (read s Cvtype) /\ read s Cvlenb = b.
Proof.
  intros H R. pose proof (run_inv _ _ _ (init_inv b t0 H) R) as I. pose proof (inv_vl s I) as L.
  pose proof (run_vlenb _ _ _ R) as V. cbn [init vlenb] in V.
  pose proof (VLMAX_bound (vlenb s) (vtype s) ltac:(lia)). cbn [read].
  rewrite wrap_id by (unfold inw; lia). rewrite <- V. split; [exact L|]. apply I.
Qed.

(** CSR accesses and completion of other instructions leave the configuration alone. *)
Lemma nonvset_cfg b t0 l s o s' r : 0 <= b <= 8192 -> run (init b t0) l = Some s ->
  match o with Vset _ _ _ _ => False | _ => True end -> step s o = Some (s', r) ->
  forall c, In c [Cvl; Cvtype; Cvlenb] -> read s' c = read s c.
Proof.
  intros H R N E c Hc. pose proof (run_inv _ _ _ (init_inv b t0 H) R) as I.
  assert (vl s' = vl s /\ vtype s' = vtype s /\ stored s' Cvlenb = stored s Cvlenb) as (P & Q & S).
  { destruct o; cbn [step] in E; try contradiction; injection E as <- <-; unfold set_bits, clear_bits;
    try (match goal with |- context [write s ?c ?v] => destruct (write_inv s c v I) as (_ & P & Q & _ & S); auto end);
    repeat split. }
  destruct Hc as [<-|[<-|[<-|[]]]]; cbn [read]; congruence.
Qed.

(** Fixed-point CSRs. *)
Lemma vcsr_view s : 0 <= vxrm s < 4 -> read s Cvcsr = 2 * read s Cvxrm + read s Cvxsat.
Proof.
  intros H. cbn [read]. rewrite land3, (Z.mod_small (vxrm s) 4) by lia. rewrite Z.shiftl_mul_pow2 by lia.
  rewrite wrap_id by (unfold inw; lia).
  assert (vxrm s = 0 \/ vxrm s = 1 \/ vxrm s = 2 \/ vxrm s = 3) as C by lia.
  destruct C as [->|[->|[->| ->]]]; destruct (vxsat s); reflexivity.
Qed.
Lemma run_vcsr b t0 l s : 0 <= b <= 8192 -> run (init b t0) l = Some s ->
  read s Cvcsr = 2 * read s Cvxrm + read s Cvxsat /\ 0 <= read s Cvxrm < 4 /\ 0 <= read s Cvxsat < 2.
Proof.
  intros H R. pose proof (run_inv _ _ _ (init_inv b t0 H) R) as I.
  assert (0 <= vxrm s < 4) as X by apply I. split; [apply vcsr_view; exact X|].
  cbn [read]. destruct (vxsat s); lia.
Qed.

Lemma odd_land1 v : Z.odd (Z.land (wrap 32 v) 1) = Z.odd v.
Proof.
  rewrite <- !Z.bit0_odd, Z.land_spec. change (Z.testbit 1 0) with true. rewrite andb_true_r.
  rewrite wrap_testbit by lia. reflexivity.
Qed.
Lemma wrap32_mod v m : (m = 4 \/ m = 8) -> (wrap 32 v) mod m = v mod m.
Proof. intros [-> | ->]; unfold wrap; symmetry; apply Znumtheory.Zmod_div_mod; try lia; [exists (2^30)|exists (2^29)]; reflexivity. Qed.

Definition fxv (s : vcfg) : fx := {| fx_rm := vxrm s; fx_sat := vxsat s |}.
Lemma fx_refines s o s' r : plain o -> step s o = Some (s', r) -> fxv s' = fx_step (fxv s) o.
Proof.
  intros P E. destruct o; cbn [plain step] in *; try contradiction.
  - cbn [fx_step]. revert E. unfold vsetvl.
    destruct (set_vector_type s _) as [s1|] eqn:E; [|discriminate].
    destruct (svt_derived _ _ _ E) as (_ & _ & _ & _ & _ & A & B & _). unfold fxv.
    destruct (_ && _); [|intros [= <- <-]; cbn [set_vl vxrm vxsat]; congruence].
    destruct (negb _); [|intros [= <- <-]; cbn [set_vl vxrm vxsat]; congruence].
    destruct (set_vector_type s1 _) as [s2|] eqn:E2; [|discriminate].
    destruct (svt_derived _ _ _ E2) as (_ & _ & _ & _ & _ & A2 & B2 & _).
    intros [= <- <-]. cbn [set_vexc vxrm vxsat]. congruence.
  - injection E as <- <-. unfold fxv.
    destruct c; cbn [write set_stored set_vstart set_vxsat set_vxrm vxrm vxsat fx_step fx_write fx_rm fx_sat];
      try reflexivity.
    + rewrite odd_land1. reflexivity.
    + rewrite !land3, Z.mod_mod by lia. f_equal. apply wrap32_mod; auto.
    + rewrite odd_land1, !land3, Z.mod_mod by lia. f_equal.
      rewrite Z.shiftr_div_pow2 by lia. change (2 ^ 1) with 2.
      unfold wrap. change (2 ^ 32) with (2 * 2 ^ 31). rewrite Z.rem_mul_r by lia.
      rewrite (Z.mul_comm 2 (_ mod _)), Z.div_add by lia.
      rewrite (Z.div_small (v mod 2)) by (apply Z.mod_pos_bound; lia). rewrite Z.add_0_l.
      symmetry; apply Znumtheory.Zmod_div_mod; try lia. exists (2^29); reflexivity.
  - injection E as <- <-. reflexivity.
  - injection E as <- <-. reflexivity.
Qed.
Lemma fx_refines_run l : forall s s', Forall plain l -> run s l = Some s' -> fxv s' = fold_left fx_step l (fxv s).
Proof.
  induction l as [|o l IH]; intros s s' F; cbn [run fold_left]; [intros [= <-]; reflexivity|].
  destruct (step s o) as [[s1 r]|] eqn:E; [|discriminate]. inversion F; subst. intros R.
  rewrite (IH _ _ H2 R). f_equal. eapply fx_refines; eauto.
Qed.
Lemma fx_reads b t0 l s c : Forall plain l -> run (init b t0) l = Some s -> In c [Cvxsat; Cvxrm; Cvcsr] ->
  0 <= b <= 8192 -> read s c = fx_read (fx_run l) c.
Proof.
  intros F R Hc Hb. pose proof (fx_refines_run l _ _ F R) as E. change (fxv (init b t0)) with fx0 in E.
  fold (fx_run l) in E. rewrite <- E. pose proof (run_vcsr b t0 l s Hb R) as (V & _).
  assert (read s Cvxsat = Z.b2z (vxsat s)) as S by (cbn [read]; destruct (vxsat s); reflexivity).
  destruct Hc as [<-|[<-|[<-|[]]]]; [exact S|reflexivity|]. rewrite V, S. reflexivity.
Qed.
