(** A verified checker for decode tables: constraints become cubes (sets of words given by fixing some
    bits), and one pass over the bits visits every combination of rows and manual entries that any
    word can meet. *)
From Coq Require Import ZArith List String Bool Lia.
From Verif Require Import Bits FmtSpec FmtModel FmtProofs DecSpec DecModel.
Import ListNotations.
Local Open Scope Z_scope.

(** * Cubes *)

(** A bit of the word and its value. *)
Definition lit : Type := Z * bool.
Definition lits_hold (w : Z) (ls : list lit) : bool := forallb (fun l => Bool.eqb (Z.testbit w (fst l)) (snd l)) ls.
Definition dnf : Type := list (list lit).
Definition dnf_holds (w : Z) (d : dnf) : bool := existsb (lits_hold w) d.

Definition dand (a b : dnf) : dnf := flat_map (fun x => map (fun y => (x ++ y)%list) b) a.
Lemma lits_app w a b : lits_hold w (a ++ b) = lits_hold w a && lits_hold w b.
Proof. apply forallb_app. Qed.
Lemma dnf_app w a b : dnf_holds w (a ++ b) = dnf_holds w a || dnf_holds w b.
Proof. apply existsb_app. Qed.
Lemma dnf_map w x b : dnf_holds w (map (fun y => (x ++ y)%list) b) = lits_hold w x && dnf_holds w b.
Proof.
  unfold dnf_holds in *. induction b as [| y b IH]; cbn [map existsb]; [rewrite andb_false_r; reflexivity |].
  rewrite lits_app, IH. destruct (lits_hold w x), (lits_hold w y); reflexivity.
Qed.
Lemma dand_holds w a b : dnf_holds w (dand a b) = dnf_holds w a && dnf_holds w b.
Proof.
  induction a as [| x a IH]; [reflexivity |]. unfold dand in *. cbn [flat_map].
  rewrite dnf_app, dnf_map, IH. unfold dnf_holds at 4. cbn [existsb]. fold (dnf_holds w a).
  destruct (lits_hold w x), (dnf_holds w a), (dnf_holds w b); reflexivity.
Qed.

(** One source bit equals [b]. *)
Definition bit_is (s : src) (b : bool) : dnf :=
  match s with SB k => [[(k, b)]] | SC c => if Bool.eqb c b then [[]] else [] end.
Lemma zrange_from_length lo n : List.length (zrange_from lo n) = n.
Proof. revert lo. induction n as [| n IH]; intros lo; [reflexivity |]. cbn. rewrite IH. reflexivity. Qed.
Lemma zrange_from_S : forall n lo, zrange_from lo (S n) = (zrange_from lo n ++ [lo + Z.of_nat n])%list.
Proof.
  induction n as [| n IH]; intros lo; [cbn; rewrite Z.add_0_r; reflexivity |].
  change (zrange_from lo (S (S n))) with (lo :: zrange_from (lo + 1) (S n)). rewrite IH. cbn [zrange_from app].
  do 3 f_equal. lia.
Qed.
Lemma bit_is_holds w s b : dnf_holds w (bit_is s b) = Bool.eqb (src_bit w s) b.
Proof. destruct s as [k | c]; cbn; [rewrite andb_true_r, orb_false_r; reflexivity |]. destruct (Bool.eqb c b); reflexivity. Qed.

(** Comparing a number given by its bits, most significant first, with a constant: which of less,
    equal, greater are wanted. *)
Fixpoint compare_dnf (lt eq gt : bool) (l : list src) (v : Z) : dnf :=
  match l with
  | [] => if eq then [[]] else []
  | s :: r =>
    let t := Z.testbit v (Z.of_nat (List.length r)) in
    ((if (if t then lt else gt) then bit_is s (negb t) else []) ++ dand (bit_is s t) (compare_dnf lt eq gt r v))%list
  end.
Definition wanted (lt eq gt : bool) (c : comparison) : bool := match c with Lt => lt | Eq => eq | Gt => gt end.

Lemma testbit_top v n : 0 <= n -> 0 <= v < 2 ^ (n + 1) -> v = Z.b2z (Z.testbit v n) * 2 ^ n + v mod 2 ^ n.
Proof.
  intros Hn Hv. assert (P : 0 < 2 ^ n) by (apply pow2_pos; lia).
  rewrite Z.testbit_spec' by lia. rewrite (Z.mod_small (v / 2 ^ n)).
  - rewrite (Z.div_mod v (2 ^ n)) at 1 by lia. ring.
  - split; [apply Z.div_pos; lia |]. apply Z.div_lt_upper_bound; [lia |]. rewrite Z.pow_add_r in Hv by lia. lia.
Qed.
Lemma compare_dnf_mod lt eq gt l v n : len l <= n -> compare_dnf lt eq gt l (v mod 2 ^ n) = compare_dnf lt eq gt l v.
Proof.
  revert n. induction l as [| s r IH]; intros n H; [reflexivity |]. cbn [compare_dnf].
  assert (L : len (s :: r) = len r + 1) by (cbn [List.length]; lia).
  cbn [List.length] in H. rewrite (IH n) by lia. rewrite Z.mod_pow2_bits_low by (cbn [List.length] in *; lia). reflexivity.
Qed.
Lemma compare_dnf_holds lt eq gt w l : forall v, 0 <= v < 2 ^ len l ->
  dnf_holds w (compare_dnf lt eq gt l v) = wanted lt eq gt (gather l w ?= v).
Proof.
  induction l as [| s r IH]; intros v Hv.
  - cbn in Hv. cbn. replace v with 0 by lia. destruct eq; reflexivity.
  - cbn [compare_dnf gather].
    assert (L : len (s :: r) = len r + 1) by (cbn [List.length]; lia). rewrite L in Hv.
    assert (LN : 0 <= len r) by (lia).
    change (Z.of_nat (List.length r)) with (len r).
    rewrite dnf_app, dand_holds, bit_is_holds.
    rewrite <- (compare_dnf_mod lt eq gt r v (len r)) by lia.
    assert (P : 0 < 2 ^ len r) by (apply pow2_pos; lia).
    rewrite IH by (apply Z.mod_pos_bound; lia).
    pose proof (testbit_top v (len r) LN Hv) as V. pose proof (gather_range r w) as GR.
    pose proof (Z.mod_pos_bound v (2 ^ len r) P) as MR.
    set (g := gather r w) in *. set (m := v mod 2 ^ len r) in *. set (p := 2 ^ len r) in *.
    set (t := Z.testbit v (len r)) in *. rewrite V. clearbody g m p t. clear - GR MR P.
    destruct t, (src_bit w s) eqn:B; cbn [Bool.eqb Z.b2z andb negb].
    + rewrite !Z.mul_1_l, Z.add_compare_mono_l. destruct lt; rewrite ?bit_is_holds, ?B; reflexivity.
    + rewrite orb_false_r. replace (0 * p + g ?= 1 * p + m) with Lt by (symmetry; apply Z.compare_lt_iff; lia).
      destruct lt; cbn [wanted]; [rewrite bit_is_holds, B; reflexivity | reflexivity].
    + rewrite orb_false_r. replace (1 * p + g ?= 0 * p + m) with Gt by (symmetry; apply Z.compare_gt_iff; lia).
      destruct gt; cbn [wanted]; [rewrite bit_is_holds, B; reflexivity | reflexivity].
    + rewrite !Z.mul_0_l, Z.add_compare_mono_l. destruct gt; rewrite ?bit_is_holds, ?B; reflexivity.
Qed.

(** Two equally long numbers differ. *)
Fixpoint differ_dnf (a b : list src) : dnf :=
  match a, b with
  | s :: a', t :: b' =>
    (dand (bit_is s true) (bit_is t false) ++ dand (bit_is s false) (bit_is t true) ++ differ_dnf a' b')%list
  | _, _ => [] end.
Lemma differ_dnf_holds w : forall a b, List.length a = List.length b ->
  dnf_holds w (differ_dnf a b) = negb (gather a w =? gather b w).
Proof.
  induction a as [| s a IH]; intros [| t b] H; try discriminate; [reflexivity |].
  cbn [differ_dnf gather]. injection H as H. rewrite !dnf_app, !dand_holds, !bit_is_holds, IH, H by exact H.
  pose proof (gather_range a w) as GA. pose proof (gather_range b w) as GB. rewrite H in GA.
  set (p := 2 ^ Z.of_nat (List.length b)) in *. set (x := gather a w) in *. set (y := gather b w) in *.
  clearbody p x y. clear - GA GB. apply eq_true_iff_eq. 
  destruct (src_bit w s), (src_bit w t); cbn [Bool.eqb andb orb Z.b2z]; rewrite ?negb_true_iff, ?Z.eqb_neq; split; intros; try reflexivity; try lia.
Qed.

(** * Rows and conditions *)

Definition rel_wants (r : rel) : bool * bool * bool :=
  match r with
  | REq => (false, true, false) | RNe => (true, false, true) | RLt => (true, false, false)
  | RGt => (false, false, true) | RGe => (false, true, true) | RLe => (true, true, false) end.
Lemma rel_wants_ok r x y : let '(a, b, c) := rel_wants r in wanted a b c (x ?= y) = compares r x y.
Proof.
  destruct r; cbn; unfold Z.ltb, Z.leb, Z.eqb; rewrite ?(Z.compare_antisym x y); try (destruct (x ?= y) eqn:E; reflexivity);
    [destruct (Z.compare_spec x y) | destruct (Z.compare_spec x y)]; cbn.
  all: fold (Z.eqb x y); destruct (Z.eqb_spec x y); try reflexivity; lia.
Qed.

Definition constraint_dnf (fm : format) (c : constraint) : option dnf :=
  match c with
  | CVal f r v =>
    match layout fm f with
    | Some (sg, width, l) =>
      let ok := if sg then (v =? 0) && (len l =? width) && (1 <=? width) && match r with REq | RNe => true | _ => false end
                else (0 <=? v) && (v <? 2 ^ len l) in
      if ok then let '(a, b, c) := rel_wants r in Some (compare_dnf a b c l v) else None
    | None => None end
  | CFld f RNe g =>
    match layout fm f, layout fm g with
    | Some (false, _, a), Some (false, _, b) => if Nat.eqb (List.length a) (List.length b) then Some (differ_dnf a b) else None
    | _, _ => None end
  | _ => None end.
Lemma constraint_dnf_ok fm c d w : constraint_dnf fm c = Some d -> dnf_holds w d = satisfied fm w c.
Proof.
  destruct c as [f r v | f r g]; cbn [constraint_dnf satisfied].
  - unfold extract. destruct (layout fm f) as [[[sg width] l] |]; [| discriminate].
    pose proof (rel_wants_ok r) as RW. destruct sg.
    + destruct (v =? 0) eqn:V; [| discriminate]. destruct (len l =? width) eqn:L; [| discriminate].
      destruct (1 <=? width) eqn:W1; [| discriminate]. cbn [andb]. apply Z.eqb_eq in V, L. apply Z.leb_le in W1. subst v width.
      destruct r; try discriminate; cbn [rel_wants]; intros E; injection E as <-;
        (rewrite compare_dnf_holds by (pose proof (gather_range l w); lia));
        pose proof (gather_range l w) as GR;
        assert (S : (sgn (len l) (gather l w) =? 0) = (gather l w =? 0))
          by (apply eq_true_iff_eq; rewrite !Z.eqb_eq; split; intros E;
              [rewrite <- (wrap_id (len l) (gather l w)) by (unfold inw; lia); rewrite <- (wrap_sgn (len l)) by lia;
               rewrite E; unfold wrap; apply Z.mod_0_l; pose proof (pow2_pos (len l)); lia
              | rewrite E; apply sgn_id; [lia | pose proof (pow2_pos (len l - 1)); lia]]);
        cbn [compares]; rewrite S; [apply (RW (gather l w) 0) | apply (RW (gather l w) 0)].
    + destruct (0 <=? v) eqn:V0; [| discriminate]. destruct (v <? 2 ^ len l) eqn:V1; [| discriminate]. cbn [andb].
      apply Z.leb_le in V0. apply Z.ltb_lt in V1. specialize (RW (gather l w) v).
      destruct (rel_wants r) as [[a b] c]. intros E. injection E as <-. rewrite compare_dnf_holds by lia. exact RW.
  - destruct r; try discriminate. unfold extract.
    destruct (layout fm f) as [[[[] wa] a] |]; try discriminate. destruct (layout fm g) as [[[[] wb] b] |]; try discriminate.
    destruct (Nat.eqb_spec (List.length a) (List.length b)) as [E |]; [| discriminate]. intros H. injection H as <-.
    cbn [compares]. apply differ_dnf_holds. exact E.
Qed.

Fixpoint all_dnf {A} (f : A -> option dnf) (cs : list A) : option dnf :=
  match cs with
  | [] => Some [[]]
  | c :: r => match f c, all_dnf f r with Some a, Some b => Some (dand a b) | _, _ => None end end.
Definition row_dnf (r : row) : option dnf := all_dnf (constraint_dnf (r_fmt r)) (r_cons r).
Lemma row_dnf_ok r d w : row_dnf r = Some d -> dnf_holds w d = applies r w.
Proof.
  unfold row_dnf, applies. revert d. induction (r_cons r) as [| c cs IH]; intros d H; cbn [all_dnf forallb] in *.
  - injection H as <-. reflexivity.
  - destruct (constraint_dnf (r_fmt r) c) as [a |] eqn:A; [| discriminate].
    destruct (all_dnf (constraint_dnf (r_fmt r)) cs) as [b |]; [| discriminate]. injection H as <-.
    rewrite dand_holds, (IH b eq_refl), (constraint_dnf_ok _ _ _ _ A). reflexivity.
Qed.

Definition range_src (r : Z * Z) : list src := range_bits 0 r.
Definition ranges_src (rs : list (Z * Z)) : list src := flat_map range_src rs.
Definition range_ok (r : Z * Z) : bool := (0 <=? snd r) && (snd r <=? fst r).
Definition cond_dnf (c : cond) : option dnf :=
  let cmp lt eq gt rs v :=
    if forallb range_ok rs && (0 <=? v) && (v <? 2 ^ len (ranges_src rs)) then Some (compare_dnf lt eq gt (ranges_src rs) v) else None in
  match c with
  | Is rs v => cmp false true false rs v
  | Isnt rs v => cmp true false true rs v
  | Atleast rs v => cmp false true true rs v
  | Below rs v => cmp true false false rs v
  | Differ r s =>
    if range_ok r && range_ok s && (fst r - snd r =? fst s - snd s) then Some (differ_dnf (range_src r) (range_src s)) else None end.

Lemma gather_app a b w : gather (a ++ b) w = gather a w * 2 ^ len b + gather b w.
Proof.
  induction a as [| s a IH]; [reflexivity |]. cbn [gather app]. rewrite IH, app_length, Nat2Z.inj_add.
  change (Z.of_nat (List.length b)) with (len b). rewrite Z.pow_add_r by (lia). ring.
Qed.
Lemma range_len r : range_ok r = true -> len (range_src r) = fst r - snd r + 1.
Proof.
  intros H. apply andb_true_iff in H. rewrite !Z.leb_le in H. unfold range_src, range_bits.
  rewrite map_length, rev_length. rewrite zrange_from_length. lia.
Qed.
Lemma gather_zrange w lo n : 0 <= lo ->
  gather (map (fun i => SB (0 + i)) (rev (zrange_from lo n))) w = w / 2 ^ lo mod 2 ^ Z.of_nat n.
Proof.
  intros Hlo. induction n as [| n IH].
  - cbn. rewrite Z.mod_1_r. reflexivity.
  - rewrite zrange_from_S, rev_app_distr. cbn [rev app map gather]. rewrite IH, map_length, rev_length, zrange_from_length.
    rewrite Nat2Z.inj_succ. cbn [src_bit]. rewrite Z.add_0_l.
    set (x := w / 2 ^ lo).
    assert (T : Z.testbit w (lo + Z.of_nat n) = Z.testbit x (Z.of_nat n)) by (unfold x; rewrite Z.div_pow2_bits by lia; f_equal; lia).
    rewrite T. assert (P : 0 < 2 ^ Z.of_nat n) by (apply pow2_pos; lia).
    rewrite Z.testbit_spec' by lia. unfold Z.succ. rewrite Z.pow_add_r by lia. change (2 ^ 1) with 2.
    rewrite Z.rem_mul_r by lia. ring.
Qed.
Lemma range_gather w r : range_ok r = true -> gather (range_src r) w = bits w r.
Proof.
  intros H. apply andb_true_iff in H. rewrite !Z.leb_le in H. unfold range_src, range_bits, bits.
  rewrite gather_zrange by lia. rewrite Z2Nat.id by lia. reflexivity.
Qed.
Lemma ranges_gather w rs : forallb range_ok rs = true -> gather (ranges_src rs) w = fields w rs.
Proof.
  unfold fields. intros H.
  enough (E : forall acc, acc * 2 ^ len (ranges_src rs) + gather (ranges_src rs) w
             = fold_left (fun acc r => acc * 2 ^ (fst r - snd r + 1) + bits w r) rs acc)
    by (rewrite <- (E 0); ring).
  induction rs as [| r rs IH]; intros acc; [cbn; ring |]. cbn [forallb] in H. apply andb_true_iff in H. destruct H as [Hr H].
  unfold ranges_src in *. cbn [flat_map fold_left]. rewrite <- (IH H). rewrite gather_app, (range_gather w r Hr).
  assert (L : len (range_src r ++ flat_map range_src rs) = fst r - snd r + 1 + len (flat_map range_src rs))
    by (rewrite <- (range_len r Hr); rewrite app_length; lia).
  rewrite L. pose proof (range_len r Hr). rewrite Z.pow_add_r by (lia). ring.
Qed.
Lemma cond_dnf_ok c d w : cond_dnf c = Some d -> (dnf_holds w d = true <-> holds w c).
Proof.
  destruct c as [rs v | rs v | rs v | rs v | r s]; cbn [cond_dnf holds];
    try (destruct (forallb range_ok rs) eqn:R; [| discriminate]; destruct (0 <=? v) eqn:V0; [| discriminate];
         destruct (v <? 2 ^ len (ranges_src rs)) eqn:V1; [| discriminate]; cbn [andb]; intros H; injection H as <-;
         apply Z.leb_le in V0; apply Z.ltb_lt in V1; rewrite compare_dnf_holds by lia; rewrite (ranges_gather w rs R);
         destruct (Z.compare_spec (fields w rs) v); cbn [wanted]; split; intros; try reflexivity; try discriminate; try lia).
  destruct (range_ok r) eqn:R; [| discriminate]. destruct (range_ok s) eqn:S; [| discriminate].
  destruct (fst r - snd r =? fst s - snd s) eqn:E; [| discriminate]. apply Z.eqb_eq in E. cbn [andb]. intros H. injection H as <-.
  rewrite differ_dnf_holds, (range_gather w r R), (range_gather w s S), negb_true_iff, Z.eqb_neq; [tauto |].
  pose proof (range_len r R). pose proof (range_len s S). lia.
Qed.
Definition conds_dnf (cs : list cond) : option dnf := all_dnf cond_dnf cs.
Lemma conds_dnf_ok cs : forall d w, conds_dnf cs = Some d -> (dnf_holds w d = true <-> Forall (holds w) cs).
Proof.
  unfold conds_dnf. induction cs as [| c cs IH]; intros d w H; cbn [all_dnf] in *.
  - injection H as <-. split; [constructor | reflexivity].
  - destruct (cond_dnf c) as [a |] eqn:A; [| discriminate]. destruct (all_dnf cond_dnf cs) as [b |]; [| discriminate].
    injection H as <-. rewrite dand_holds, andb_true_iff, (IH b w eq_refl), (cond_dnf_ok c a w A).
    split; [intros [? ?]; constructor; assumption | intros F; inversion F; split; assumption].
Qed.

(** * The pass over the bits *)

(** A cube laid out along the order in which the bits are visited. *)
Definition cube : Type := list (option bool).
Fixpoint inside (c : cube) (bs : list bool) : bool :=
  match c, bs with
  | o :: c', b :: bs' => match o with None => true | Some x => Bool.eqb x b end && inside c' bs'
  | [], [] => true
  | _, _ => false end.

(** The value demanded of bit [k]: none, one, or contradictory. *)
Fixpoint demand (ls : list lit) (k : Z) : option (option bool) :=
  match ls with
  | [] => Some None
  | (j, b) :: r =>
    match demand r k with
    | None => None
    | Some d => if j =? k then match d with None => Some (Some b) | Some b' => if Bool.eqb b b' then Some (Some b) else None end else Some d
    end end.
Fixpoint place (ls : list lit) (ks : list Z) : option cube :=
  match ks with
  | [] => Some []
  | k :: r => match demand ls k, place ls r with Some o, Some c => Some (o :: c) | _, _ => None end end.
Definition lits_in (ls : list lit) (ks : list Z) : bool := forallb (fun l => existsb (Z.eqb (fst l)) ks) ls.

Lemma demand_holds ls k w : (forall b, In (k, b) ls -> Z.testbit w k = b) <->
  match demand ls k with None => False | Some None => True | Some (Some b) => Z.testbit w k = b end.
Proof.
  induction ls as [| [j b] ls IH]; cbn [demand]; [split; [trivial | intros _ ? []] |].
  assert (S : (forall b', In (k, b') ((j, b) :: ls) -> Z.testbit w k = b') <->
              ((j = k -> Z.testbit w k = b) /\ (forall b', In (k, b') ls -> Z.testbit w k = b'))).
  { split.
    - intros H. split; [intros <-; apply H; left; reflexivity | intros b' Hb; apply H; right; exact Hb].
    - intros [H1 H2] b' [E | Hb]; [injection E as <- <-; apply H1; reflexivity | apply H2; exact Hb]. }
  rewrite S, IH. clear. destruct (demand ls k) as [[b' |] |]; destruct (Z.eqb_spec j k) as [-> | N];
    try (destruct (Bool.eqb_spec b b')); subst; try tauto; try (split; [intros [H1 H2]; specialize (H1 eq_refl); congruence | intros []]).
Qed.
Lemma lits_hold_iff w ls : lits_hold w ls = true <-> forall k b, In (k, b) ls -> Z.testbit w k = b.
Proof.
  unfold lits_hold. rewrite forallb_forall. split.
  - intros H k b Hk. apply eqb_prop. exact (H (k, b) Hk).
  - intros H [k b] Hk. cbn. apply eqb_true_iff. exact (H k b Hk).
Qed.
Lemma place_ok ls w : forall ks,
  (forall k b, In k ks -> In (k, b) ls -> Z.testbit w k = b) <->
  match place ls ks with None => False | Some c => inside c (map (Z.testbit w) ks) = true end.
Proof.
  induction ks as [| k ks IH]; cbn [place]; [split; [reflexivity | intros _ ? ? []] |].
  assert (S : (forall j b, In j (k :: ks) -> In (j, b) ls -> Z.testbit w j = b) <->
              ((forall b, In (k, b) ls -> Z.testbit w k = b) /\ (forall j b, In j ks -> In (j, b) ls -> Z.testbit w j = b))).
  { split.
    - intros H. split; [intros b; apply H; left; reflexivity | intros j b Hj; apply H; right; exact Hj].
    - intros [H1 H2] j b [<- | Hj]; [apply H1 | apply H2; exact Hj]. }
  rewrite S, IH, demand_holds. clear. destruct (demand ls k) as [o |]; [| tauto]. destruct (place ls ks) as [c |]; [| tauto].
  cbn [map inside]. rewrite andb_true_iff. destruct o as [b |]; [| tauto].
  rewrite eqb_true_iff. split; intros [? ?]; (split; [congruence | assumption]).
Qed.

Section Sweep.
  Variable T : Type.
  Variable ks : list Z.

  Fixpoint place_all (t : T) (d : dnf) : option (list (T * cube)) :=
    match d with
    | [] => Some []
    | ls :: r =>
      if lits_in ls ks then
        match place_all t r with
        | None => None
        | Some l => match place ls ks with None => Some l | Some c => Some ((t, c) :: l) end end
      else None end.

  Definition live (bs : list bool) (L : list (T * cube)) : list T :=
    map fst (filter (fun tc => inside (snd tc) bs) L).

  Lemma place_all_ok t w : forall d L, place_all t d = Some L ->
    (dnf_holds w d = true <-> In t (live (map (Z.testbit w) ks) L)) /\ forall t', In t' (map fst L) -> t' = t.
  Proof.
    induction d as [| ls d IH]; intros L H; cbn [place_all] in H.
    - injection H as <-. split; [split; [discriminate | intros []] | intros t' []].
    - destruct (lits_in ls ks) eqn:LI; [| discriminate]. destruct (place_all t d) as [L' |]; [| discriminate].
      destruct (IH L' eq_refl) as [IH1 IH2]. cbn [dnf_holds existsb]. rewrite orb_true_iff. unfold dnf_holds in IH1.
      assert (LH : lits_hold w ls = true <-> match place ls ks with None => False | Some c => inside c (map (Z.testbit w) ks) = true end).
      { rewrite <- place_ok, lits_hold_iff. unfold lits_in in LI. rewrite forallb_forall in LI. split.
        - intros H' k b _. apply H'.
        - intros H' k b Hk. apply H'; [| exact Hk]. specialize (LI (k, b) Hk). apply existsb_exists in LI.
          destruct LI as (j & Hj & E). apply Z.eqb_eq in E. cbn in E. subst j. exact Hj. }
      rewrite LH, IH1. destruct (place ls ks) as [c |]; injection H as <-.
      + split; [| intros t' [<- | Ht]; [reflexivity | apply IH2; exact Ht]].
        unfold live. cbn [filter snd]. destruct (inside c (map (Z.testbit w) ks)); cbn [map fst In].
        * tauto.
        * split; [intros [H | H]; [discriminate | exact H] | intros H; right; exact H].
      + split; [tauto | exact IH2].
  Qed.

  Variable leaf : list T -> bool.

  Definition head_free (tc : T * cube) : bool := match snd tc with Some _ :: _ => false | _ => true end.
  Definition chop (tc : T * cube) : T * cube := (fst tc, tl (snd tc)).
  Fixpoint keep (b : bool) (L : list (T * cube)) : list (T * cube) :=
    match L with
    | [] => []
    | (t, c) :: r =>
      match c with
      | o :: c' => match o with
                   | None => (t, c') :: keep b r
                   | Some x => if Bool.eqb x b then (t, c') :: keep b r else keep b r end
      | [] => keep b r end end.

  Fixpoint sweep (n : nat) (L : list (T * cube)) : bool :=
    match n with
    | O => leaf (map fst L)
    | S m =>
      match L with
      | [] => leaf []
      | _ => if forallb head_free L then sweep m (keep true L) else sweep m (keep true L) && sweep m (keep false L) end end.

  Lemma live_keep b bs L : live (b :: bs) L = live bs (keep b L).
  Proof.
    unfold live. induction L as [| [t c] L IH]; [reflexivity |]. cbn [filter keep snd].
    destruct c as [| o c]; [exact IH |]. cbn [inside]. destruct o as [x |].
    - destruct (Bool.eqb x b); cbn [andb]; [| exact IH]. cbn [filter snd]. destruct (inside c bs); cbn [map fst]; rewrite IH; reflexivity.
    - cbn [andb filter snd]. destruct (inside c bs); cbn [map fst]; rewrite IH; reflexivity.
  Qed.
  Lemma keep_free b b' L : forallb head_free L = true -> keep b L = keep b' L.
  Proof.
    induction L as [| [t c] L IH]; [reflexivity |]. cbn [forallb keep]. intros H. apply andb_true_iff in H. destruct H as [H1 H2].
    destruct c as [| [x |] c]; cbn in H1; [apply IH; exact H2 | discriminate | rewrite (IH H2); reflexivity].
  Qed.
  Lemma sweep_ok : forall n L, (forall tc, In tc L -> List.length (snd tc) = n) -> sweep n L = true ->
    forall bs, List.length bs = n -> leaf (live bs L) = true.
  Proof.
    induction n as [| n IH]; intros L HL H bs Hb.
    - destruct bs; [| discriminate]. cbn [sweep] in H. unfold live.
      assert (E : filter (fun tc => inside (snd tc) []) L = L).
      { clear H. induction L as [| [t c] L IHL]; [reflexivity |]. cbn [filter snd].
        specialize (HL (t, c) (or_introl eq_refl)) as HC. destruct c; [| discriminate]. cbn [inside]. f_equal.
        apply IHL. intros tc Hi. apply HL. right. exact Hi. }
      rewrite E. exact H.
    - destruct bs as [| b bs]; [discriminate |]. injection Hb as Hb. rewrite live_keep.
      assert (KL : forall b', forall tc, In tc (keep b' L) -> List.length (snd tc) = n).
      { clear H. intros b'. induction L as [| [t c] L IHL]; intros tc Hi; [destruct Hi |].
        specialize (HL (t, c) (or_introl eq_refl)) as HC. cbn in HC.
        assert (HL' : forall tc, In tc L -> List.length (snd tc) = S n) by (intros tc' Hi'; apply HL; right; exact Hi').
        cbn [keep] in Hi. destruct c as [| o c]; [discriminate |]. injection HC as HC.
        destruct o as [x |]; [destruct (Bool.eqb x b') |]; try (destruct Hi as [<- | Hi]; [exact HC |]); exact (IHL HL' tc Hi). }
      cbn [sweep] in H. destruct L as [| tc0 L0] eqn:EL; [exact H |]. rewrite <- EL in *. clear EL.
      destruct (forallb head_free L) eqn:HF.
      + rewrite (keep_free b true L HF). apply (IH _ (KL true) H bs Hb).
      + apply andb_true_iff in H. destruct H as [H1 H2]. destruct b; [apply (IH _ (KL true) H1 bs Hb) | apply (IH _ (KL false) H2 bs Hb)].
  Qed.
End Sweep.
