(** From the pass over the bits to the properties of a decoder. *)
From Coq Require Import ZArith List String Bool Lia.
From Verif Require Import Bits FmtSpec FmtModel FmtProofs DecSpec DecModel DecCheck.
Import ListNotations.
Local Open Scope Z_scope.

(** What a word can meet: a row of the decoder, an entry of the manual, an exception of either. *)
Inductive tag :=
  | TRow (o : string)
  | TExtra (o : string)
  | TEnt (m : string) (ops : list string)
  | TMiss (m : string).

Definition mem (s : string) (l : list string) : bool := existsb (String.eqb s) l.
Lemma mem_iff s l : mem s l = true <-> In s l.
Proof.
  unfold mem. rewrite existsb_exists. split.
  - intros (x & Hx & E). apply String.eqb_eq in E. subst. exact Hx.
  - intros H. exists s. split; [exact H | apply String.eqb_refl].
Qed.

Definition oand (a b : option dnf) : option dnf := match a, b with Some x, Some y => Some (dand x y) | _, _ => None end.
Definition row_items (extra : list region) (r : row) : list (tag * option dnf) :=
  let d := row_dnf r in
  (TRow (r_name r), d) ::
  map (fun g => (TExtra (r_name r), oand d (conds_dnf (rg_conds g)))) (filter (fun g => mem (r_name r) (rg_names g)) extra).
Definition entry_items (missing : list region) (e : entry) : list (tag * option dnf) :=
  let d := conds_dnf (encoding e) in
  (TEnt (mnemonic e) (opcodes e), d) ::
  map (fun g => (TMiss (mnemonic e), oand d (conds_dnf (rg_conds g)))) (filter (fun g => mem (mnemonic e) (rg_names g)) missing).
Definition items (D : decoder_spec) (rows : list row) : list (tag * option dnf) :=
  (flat_map (row_items (ds_extra D)) rows ++ flat_map (entry_items (ds_missing D)) (ds_manual D))%list.

Fixpoint build (ks : list Z) (l : list (tag * option dnf)) : option (list (tag * cube)) :=
  match l with
  | [] => Some []
  | (t, d) :: r =>
    match d with
    | None => None
    | Some d => match place_all tag ks t d, build ks r with Some a, Some b => Some (a ++ b)%list | _, _ => None end end end.

Lemma live_app bs (a b : list (tag * cube)) : live tag bs (a ++ b) = (live tag bs a ++ live tag bs b)%list.
Proof. unfold live. rewrite filter_app, map_app. reflexivity. Qed.
Lemma build_ok ks w : forall l L, build ks l = Some L ->
  (forall t, In t (live tag (map (Z.testbit w) ks) L) <-> exists d, In (t, Some d) l /\ dnf_holds w d = true)
  /\ (forall t o, In (t, o) l -> o <> None).
Proof.
  induction l as [| [t d] l IH]; intros L H; cbn [build] in H.
  - injection H as <-. split; [intros t; split; [intros [] | intros (d & [] & _)] | intros t o []].
  - destruct d as [d |]; [| discriminate]. destruct (place_all tag ks t d) as [a |] eqn:A; [| discriminate].
    destruct (build ks l) as [b |]; [| discriminate]. injection H as <-.
    destruct (IH b eq_refl) as [IH1 IH2]. destruct (place_all_ok tag ks t w d a A) as [P1 P2].
    split; [| intros t' o [E | Hi]; [injection E as <- <-; discriminate | exact (IH2 _ _ Hi)]].
    intros t'. rewrite live_app, in_app_iff, IH1. split.
    + intros [Hl | (d' & Hd & E)].
      * assert (T : t' = t) by (apply P2; unfold live in Hl; apply in_map_iff in Hl; destruct Hl as (tc & <- & Hf);
          apply filter_In in Hf; apply in_map; exact (proj1 Hf)).
        subst t'. exists d. split; [left; reflexivity | apply P1; exact Hl].
      * exists d'. split; [right; exact Hd | exact E].
    + intros (d' & [E | Hd] & Hh).
      * injection E as -> ->. left. apply P1. exact Hh.
      * right. exists d'. split; assumption.
Qed.

Lemma place_length ls : forall ks c, place ls ks = Some c -> List.length c = List.length ks.
Proof.
  induction ks as [| k ks IH]; intros c H; cbn [place] in H; [injection H as <-; reflexivity |].
  destruct (demand ls k) as [o |]; [| discriminate]. destruct (place ls ks) as [c' |]; [| discriminate].
  injection H as <-. cbn [List.length]. rewrite (IH c' eq_refl). reflexivity.
Qed.
Lemma build_length ks : forall l L, build ks l = Some L -> forall tc, In tc L -> List.length (snd tc) = List.length ks.
Proof.
  assert (PA : forall t d L, place_all tag ks t d = Some L -> forall tc, In tc L -> List.length (snd tc) = List.length ks).
  { intros t. induction d as [| ls d IH]; intros L H tc Hi; cbn [place_all] in H; [injection H as <-; destruct Hi |].
    destruct (lits_in ls ks); [| discriminate]. destruct (place_all tag ks t d) as [L' |]; [| discriminate].
    destruct (place ls ks) as [c |] eqn:P; injection H as <-.
    - destruct Hi as [<- | Hi]; [exact (place_length _ _ _ P) | exact (IH L' eq_refl tc Hi)].
    - exact (IH L' eq_refl tc Hi). }
  induction l as [| [t d] l IH]; intros L H tc Hi; cbn [build] in H; [injection H as <-; destruct Hi |].
  destruct d as [d |]; [| discriminate]. destruct (place_all tag ks t d) as [a |] eqn:A; [| discriminate].
  destruct (build ks l) as [b |]; [| discriminate]. injection H as <-. apply in_app_iff in Hi.
  destruct Hi as [Hi | Hi]; [exact (PA _ _ _ A tc Hi) | exact (IH b eq_refl tc Hi)].
Qed.

(** * Which tags a word meets *)

Section Word.
  Variables (D : decoder_spec) (rows : list row) (w : Z) (ts : list tag).
  Hypothesis TS : forall t, In t ts <-> exists d, In (t, Some d) (items D rows) /\ dnf_holds w d = true.
  Hypothesis OK : forall t o, In (t, o) (items D rows) -> o <> None.

  Lemma oand_some a b d : oand a b = Some d -> exists x y, a = Some x /\ b = Some y /\ d = dand x y.
  Proof. unfold oand. destruct a as [x |], b as [y |]; try discriminate. intros E. injection E as <-. exists x, y. repeat split; reflexivity. Qed.

  Lemma item_cases t o : In (t, o) (items D rows) <->
    (exists r, In r rows /\ ((t = TRow (r_name r) /\ o = row_dnf r) \/
       exists g, In g (ds_extra D) /\ In (r_name r) (rg_names g) /\ t = TExtra (r_name r) /\ o = oand (row_dnf r) (conds_dnf (rg_conds g)))) \/
    (exists e, In e (ds_manual D) /\ ((t = TEnt (mnemonic e) (opcodes e) /\ o = conds_dnf (encoding e)) \/
       exists g, In g (ds_missing D) /\ In (mnemonic e) (rg_names g) /\ t = TMiss (mnemonic e) /\ o = oand (conds_dnf (encoding e)) (conds_dnf (rg_conds g)))).
  Proof.
    unfold items. rewrite in_app_iff, !in_flat_map. split.
    - intros [(r & Hr & Hi) | (e & He & Hi)]; [left; exists r | right; exists e]; (split; [assumption |]);
        (destruct Hi as [E | Hi]; [injection E as <- <-; left; split; reflexivity |]);
        right; apply in_map_iff in Hi; destruct Hi as (g & E & Hg); injection E as <- <-; apply filter_In in Hg;
        destruct Hg as [Hg M]; apply mem_iff in M; exists g; repeat split; assumption.
    - intros [(r & Hr & Hi) | (e & He & Hi)]; [left; exists r | right; exists e]; (split; [assumption |]);
        (destruct Hi as [[-> ->] | (g & Hg & M & -> & ->)]; [left; reflexivity |]);
        right; apply in_map_iff; exists g; (split; [reflexivity |]); apply filter_In; (split; [exact Hg | apply mem_iff; exact M]).
  Qed.

  Lemma have t o : In (t, o) (items D rows) -> exists d, o = Some d /\ In (t, Some d) (items D rows).
  Proof. intros H. destruct o as [d |] eqn:E; [exists d; split; [reflexivity | exact H] | elim (OK t None H); reflexivity]. Qed.

  Lemma row_tag o : In (TRow o) ts <-> decodes rows w o.
  Proof.
    rewrite TS. unfold decodes. split.
    - intros (d & Hi & Hd). apply item_cases in Hi.
      destruct Hi as [(r & Hr & [[E Eo] | (g & _ & _ & E & _)]) | (e & _ & [[E _] | (g & _ & _ & E & _)])]; try discriminate.
      injection E as ->. exists r. repeat split; [exact Hr |]. rewrite <- (row_dnf_ok r d w (eq_sym Eo)). exact Hd.
    - intros (r & Hr & A & <-). assert (Hi : In (TRow (r_name r), row_dnf r) (items D rows))
        by (apply item_cases; left; exists r; split; [exact Hr | left; split; reflexivity]).
      destruct (have _ _ Hi) as (d & E & Hi'). exists d. split; [exact Hi' |]. rewrite (row_dnf_ok r d w E). exact A.
  Qed.
  Lemma extra_tag o : decodes rows w o -> (In (TExtra o) ts <-> listed (ds_extra D) o w).
  Proof.
    intros (r & Hr & A & <-). rewrite TS. split.
    - intros (d & Hi & Hd). apply item_cases in Hi.
      destruct Hi as [(r' & Hr' & [[E _] | (g & Hg & M & E & Eo)]) | (e & _ & [[E _] | (g & _ & _ & E & _)])]; try discriminate.
      injection E as E. symmetry in Eo. apply oand_some in Eo. destruct Eo as (x & y & X & Y & ->).
      rewrite dand_holds in Hd. apply andb_true_iff in Hd. exists g. split; [exact Hg |]. rewrite E. split; [exact M |].
      apply (conds_dnf_ok _ y w Y). exact (proj2 Hd).
    - intros (g & Hg & M & F).
      assert (Hi : In (TExtra (r_name r), oand (row_dnf r) (conds_dnf (rg_conds g))) (items D rows))
        by (apply item_cases; left; exists r; split; [exact Hr | right; exists g; repeat split; assumption]).
      destruct (have _ _ Hi) as (d & E & Hi'). exists d. split; [exact Hi' |].
      apply oand_some in E. destruct E as (x & y & X & Y & ->). rewrite dand_holds. apply andb_true_iff. split.
      + rewrite (row_dnf_ok r x w X). exact A.
      + apply (conds_dnf_ok _ y w Y). exact F.
  Qed.
  Lemma entry_tag m ops : In (TEnt m ops) ts <-> exists e, In e (ds_manual D) /\ mnemonic e = m /\ opcodes e = ops /\ means e w.
  Proof.
    rewrite TS. split.
    - intros (d & Hi & Hd). apply item_cases in Hi.
      destruct Hi as [(r & Hr & [[E Eo] | (g & _ & _ & E & _)]) | (e & He & [[E Eo] | (g & _ & _ & E & _)])]; try discriminate.
      injection E as -> ->. exists e. repeat split; [exact He |]. apply (conds_dnf_ok _ d w (eq_sym Eo)). exact Hd.
    - intros (e & He & <- & <- & M). assert (Hi : In (TEnt (mnemonic e) (opcodes e), conds_dnf (encoding e)) (items D rows))
        by (apply item_cases; right; exists e; split; [exact He | left; split; reflexivity]).
      destruct (have _ _ Hi) as (d & E & Hi'). exists d. split; [exact Hi' |]. apply (conds_dnf_ok _ d w E). exact M.
  Qed.
  Lemma miss_tag e : In e (ds_manual D) -> means e w -> (In (TMiss (mnemonic e)) ts <-> listed (ds_missing D) (mnemonic e) w).
  Proof.
    intros He Me. rewrite TS. split.
    - intros (d & Hi & Hd). apply item_cases in Hi.
      destruct Hi as [(r' & Hr' & [[E _] | (g & Hg & M & E & Eo)]) | (e' & _ & [[E _] | (g & Hg & M & E & Eo)])]; try discriminate.
      injection E as E. symmetry in Eo. apply oand_some in Eo. destruct Eo as (x & y & X & Y & ->).
      rewrite dand_holds in Hd. apply andb_true_iff in Hd. exists g. split; [exact Hg |]. rewrite E. split; [exact M |].
      apply (conds_dnf_ok _ y w Y). exact (proj2 Hd).
    - intros (g & Hg & M & F).
      assert (Hi : In (TMiss (mnemonic e), oand (conds_dnf (encoding e)) (conds_dnf (rg_conds g))) (items D rows))
        by (apply item_cases; right; exists e; split; [exact He | right; exists g; repeat split; assumption]).
      destruct (have _ _ Hi) as (d & E & Hi'). exists d. split; [exact Hi' |].
      apply oand_some in E. destruct E as (x & y & X & Y & ->). rewrite dand_holds. apply andb_true_iff. split.
      + apply (conds_dnf_ok _ x w X). exact Me.
      + apply (conds_dnf_ok _ y w Y). exact F.
  Qed.
End Word.

(** * The check made for each combination of tags *)

Definition rows_of (ts : list tag) : list string := flat_map (fun t => match t with TRow o => [o] | _ => [] end) ts.
Definition extras_of (ts : list tag) : list string := flat_map (fun t => match t with TExtra o => [o] | _ => [] end) ts.
Definition ents_of (ts : list tag) : list (string * list string) := flat_map (fun t => match t with TEnt m o => [(m, o)] | _ => [] end) ts.
Definition misses_of (ts : list tag) : list string := flat_map (fun t => match t with TMiss m => [m] | _ => [] end) ts.
Lemma rows_of_in ts o : In o (rows_of ts) <-> In (TRow o) ts.
Proof.
  unfold rows_of. rewrite in_flat_map. split; [intros (t & Ht & Hi); destruct t; try destruct Hi as [<- | []]; try destruct Hi; exact Ht |].
  intros H. exists (TRow o). split; [exact H | left; reflexivity].
Qed.
Lemma extras_of_in ts o : In o (extras_of ts) <-> In (TExtra o) ts.
Proof.
  unfold extras_of. rewrite in_flat_map. split; [intros (t & Ht & Hi); destruct t; try destruct Hi as [<- | []]; try destruct Hi; exact Ht |].
  intros H. exists (TExtra o). split; [exact H | left; reflexivity].
Qed.
Lemma misses_of_in ts o : In o (misses_of ts) <-> In (TMiss o) ts.
Proof.
  unfold misses_of. rewrite in_flat_map. split; [intros (t & Ht & Hi); destruct t; try destruct Hi as [<- | []]; try destruct Hi; exact Ht |].
  intros H. exists (TMiss o). split; [exact H | left; reflexivity].
Qed.
Lemma ents_of_in ts m o : In (m, o) (ents_of ts) <-> In (TEnt m o) ts.
Proof.
  unfold ents_of. rewrite in_flat_map. split.
  - intros (t & Ht & Hi); destruct t; try destruct Hi as [E | []]; try destruct Hi. injection E as <- <-. exact Ht.
  - intros H. exists (TEnt m o). split; [exact H | left; reflexivity].
Qed.

Definition hint_of (a b : list string) : bool := match a with [] => false | _ => forallb (fun o => mem o b) a end.
Definition leaf (strict : bool) (ts : list tag) : bool :=
  let rs := rows_of ts in
  let xs := extras_of ts in
  let ys := if strict then [] else xs in
  let es := ents_of ts in
  let ms := misses_of ts in
  forallb (fun e => xorb (existsb (fun o => mem o rs) (snd e)) (mem (fst e) ms)) es &&
  forallb (fun o => xorb (existsb (fun e => mem o (snd e)) es) (mem o xs)) rs &&
  forallb (fun o1 => mem o1 ys || forallb (fun o2 => mem o2 ys || String.eqb o1 o2 ||
     existsb (fun e => mem o1 (snd e) && mem o2 (snd e)) es) rs) rs &&
  forallb (fun e1 => forallb (fun e2 => String.eqb (fst e1) (fst e2) || hint_of (snd e1) (snd e2) || hint_of (snd e2) (snd e1)) es) es.

(** The order in which the bits are visited: the bits that tell most first. *)
Definition order32 : list Z :=
  [0; 1; 2; 3; 4; 5; 6; 14; 13; 12; 31; 30; 29; 28; 27; 26; 25; 24; 23; 22; 21; 20; 19; 18; 17; 16; 15; 11; 10; 9; 8; 7].
Definition order16 : list Z := [0; 1; 15; 14; 13; 12; 11; 10; 9; 8; 7; 6; 5; 4; 3; 2].
Definition check (strict : bool) (ks : list Z) (D : decoder_spec) (rows : list row) : bool :=
  match build ks (items D rows) with
  | Some L => sweep tag (leaf strict) (List.length ks) L
  | None => false end.

Definition decoder_facts (strict : bool) (D : decoder_spec) (rows : list row) : Prop :=
  (if strict then unambiguous D (decodes rows) else unambiguous_but D (decodes rows)) /\ complete_but D (decodes rows) /\ sound_but D (decodes rows) /\ consistent D.

Lemma hint_of_ok a b : hint_of a b = true -> a <> [] /\ incl a b.
Proof.
  unfold hint_of. destruct a as [| x a]; [discriminate |]. intros H. split; [discriminate |].
  intros o Ho. rewrite forallb_forall in H. apply mem_iff. exact (H o Ho).
Qed.

Lemma check_ok strict ks D rows : check strict ks D rows = true -> decoder_facts strict D rows.
Proof.
  unfold check. destruct (build ks (items D rows)) as [L |] eqn:B; [| discriminate]. intros SW.
  assert (LF : forall w, exists ts, leaf strict ts = true /\
    (forall t, In t ts <-> exists d, In (t, Some d) (items D rows) /\ dnf_holds w d = true)).
  { intros w. exists (live tag (map (Z.testbit w) ks) L). split.
    - apply (sweep_ok tag (leaf strict) (List.length ks) L (build_length ks _ _ B) SW). apply map_length.
    - exact (proj1 (build_ok ks w _ _ B)). }
  pose proof (proj2 (build_ok ks 0 _ _ B)) as OK. clear SW B L.
  assert (F : forall w, exists ts, 
    (forall o, In o (rows_of ts) <-> decodes rows w o) /\
    (forall o, decodes rows w o -> (In o (extras_of ts) <-> listed (ds_extra D) o w)) /\
    (forall m o, In (m, o) (ents_of ts) <-> exists e, In e (ds_manual D) /\ mnemonic e = m /\ opcodes e = o /\ means e w) /\
    (forall e, In e (ds_manual D) -> means e w -> (In (mnemonic e) (misses_of ts) <-> listed (ds_missing D) (mnemonic e) w)) /\
    leaf strict ts = true).
  { intros w. destruct (LF w) as (ts & LT & TS). exists ts. split; [| split; [| split; [| split; [| exact LT]]]].
    - intros o. rewrite rows_of_in. apply (row_tag D rows w ts TS OK).
    - intros o Ho. rewrite extras_of_in. apply (extra_tag D rows w ts TS OK o Ho).
    - intros m o. rewrite ents_of_in. apply (entry_tag D rows w ts TS OK).
    - intros e He Me. rewrite misses_of_in. apply (miss_tag D rows w ts TS OK e He Me). }
  clear LF OK. unfold decoder_facts, unambiguous, unambiguous_but, complete_but, sound_but, consistent.
  split; [| split; [| split]].
  - assert (U : forall w o1 o2, decodes rows w o1 -> decodes rows w o2 ->
      (strict = false -> ~ listed (ds_extra D) o1 w /\ ~ listed (ds_extra D) o2 w) ->
      o1 = o2 \/ exists e, In e (ds_manual D) /\ means e w /\ In o1 (opcodes e) /\ In o2 (opcodes e)).
    { intros w o1 o2 A1 A2 NX. destruct (F w) as (ts & R & X & E & M & LT). unfold leaf in LT.
      apply andb_true_iff in LT. destruct LT as [LT _]. apply andb_true_iff in LT. destruct LT as [_ LT].
      rewrite forallb_forall in LT. specialize (LT o1 (proj2 (R o1) A1)).
      assert (NY : forall o, decodes rows w o -> o = o1 \/ o = o2 -> mem o (if strict then [] else extras_of ts) = false).
      { intros o Ho Ho12. destruct strict; [reflexivity |]. destruct (NX eq_refl) as [X1 X2].
        destruct (mem o (extras_of ts)) eqn:Q; [| reflexivity]. apply mem_iff in Q. apply (X o Ho) in Q.
        destruct Ho12 as [-> | ->]; contradiction. }
      rewrite (NY o1 A1 (or_introl eq_refl)) in LT. cbn [orb] in LT.
      rewrite forallb_forall in LT. specialize (LT o2 (proj2 (R o2) A2)). rewrite (NY o2 A2 (or_intror eq_refl)) in LT.
      cbn [orb] in LT. rewrite orb_true_iff in LT. destruct LT as [LT | LT]; [left; apply String.eqb_eq; exact LT |].
      right. apply existsb_exists in LT. destruct LT as ([m ops] & Hm & LT). apply E in Hm. destruct Hm as (e & He & _ & <- & Me).
      apply andb_true_iff in LT. rewrite !mem_iff in LT. cbn [snd] in LT. exists e. tauto. }
    destruct strict.
    + intros w o1 o2 _ A1 A2. apply U; [exact A1 | exact A2 | discriminate].
    + intros w o1 o2 _ A1 A2 X1 X2. apply U; [exact A1 | exact A2 | intros _; split; assumption].
  - intros w e _ He Me. destruct (F w) as (ts & R & X & E & M & LT). unfold leaf in LT.
    do 3 (apply andb_true_iff in LT; destruct LT as [LT _]).
    rewrite forallb_forall in LT. specialize (LT (mnemonic e, opcodes e)). cbn [fst snd] in LT.
    rewrite E in LT. specialize (LT ltac:(exists e; repeat split; assumption)).
    rewrite <- (M e He Me), <- mem_iff.
    assert (Q : existsb (fun o => mem o (rows_of ts)) (opcodes e) = true <-> exists o, In o (opcodes e) /\ decodes rows w o).
    { rewrite existsb_exists. split; intros (o & Ho & Hd); exists o; (split; [exact Ho |]).
      - apply R, mem_iff. exact Hd.
      - apply mem_iff, R. exact Hd. }
    rewrite <- Q. destruct (existsb _ _), (mem (mnemonic e) (misses_of ts)); try discriminate; split; congruence.
  - intros w o _ A. destruct (F w) as (ts & R & X & E & M & LT). unfold leaf in LT.
    do 2 (apply andb_true_iff in LT; destruct LT as [LT _]). apply andb_true_iff in LT. destruct LT as [_ LT].
    rewrite forallb_forall in LT. specialize (LT o (proj2 (R o) A)). rewrite <- (X o A), <- mem_iff.
    assert (Q : existsb (fun e => mem o (snd e)) (ents_of ts) = true <-> covered D w o).
    { unfold covered. rewrite existsb_exists. split.
      - intros ([m ops] & Hm & Ho). apply E in Hm. destruct Hm as (e & He & _ & <- & Me). apply mem_iff in Ho. exists e. repeat split; assumption.
      - intros (e & He & Me & Ho). exists (mnemonic e, opcodes e). split; [apply E; exists e; repeat split; assumption | apply mem_iff; exact Ho]. }
    rewrite <- Q. destruct (existsb _ _), (mem o (extras_of ts)); try discriminate; split; congruence.
  - intros w e1 e2 _ H1 H2 M1 M2. destruct (F w) as (ts & R & X & E & M & LT). unfold leaf in LT.
    apply andb_true_iff in LT. destruct LT as [_ LT]. rewrite forallb_forall in LT.
    assert (I1 : In (mnemonic e1, opcodes e1) (ents_of ts)) by (apply E; exists e1; repeat split; assumption).
    assert (I2 : In (mnemonic e2, opcodes e2) (ents_of ts)) by (apply E; exists e2; repeat split; assumption).
    specialize (LT _ I1). rewrite forallb_forall in LT. specialize (LT _ I2). cbn [fst snd] in LT.
    rewrite !orb_true_iff, String.eqb_eq in LT. destruct LT as [[LT | LT] | LT]; [left; exact LT | right; left | right; right]; apply hint_of_ok; exact LT.
Qed.
