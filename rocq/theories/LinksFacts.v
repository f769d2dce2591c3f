(** Preservation of mutual consistency by the specified effects. *)
From stdpp Require Import prelude gmap.
From Verif Require Import PyStr PyHeap Schema AssocSpec.

Section links.
Context (K : nat → name → option prop).
Implicit Types V : nat → key → option ov.

Lemma resolves_fun x p' p1 p2 : resolves K x p' p1 → resolves K x p' p2 → p1 = p2.
Proof. intros [[-> H1]|[c H1]] [[-> H2]|[c2 H2]]; naive_solver. Qed.

Lemma ends_fun x p1 p2 t q : ends_one_many K x p1 t q → ends_one_many K x p2 t q → p1 = p2.
Proof.
  intros (_ & p' & H1 & H2) (_ & p2' & H3 & H4). simplify_eq. by eapply resolves_fun.
Qed.

Section set_single.
Context V V' x p q w v0 (HL : Links K V) (Hk : K x p = Some (POneMany q))
  (Hv0 : V x (Priv p) = Some v0)
  (Hw : w = VNone ∨ ∃ t ys, w = VRef t ∧ ends_one_many K x p t q ∧ V t (Priv q) = Some (OL ys))
  (HS : SetSingle V V' x p q w).

Lemma ss_other o p2 :
  (o, p2) ≠ (x, p) → (∀ p', K o p2 ≠ Some (PManyOne p')) → V' o (Priv p2) = V o (Priv p2).
Proof.
  intros Hne Hno. apply (ss_frame _ _ _ _ _ _ HS); [congruence|].
  intros [= ->]. split.
  - intros ->. destruct Hw as [|(t & ys & [= <-] & (_ & p' & ? & _) & _)]; naive_solver.
  - intros E. destruct (lk_single _ _ HL _ _ _ _ Hk E) as [|(t & ys & [= <-] & (_ & p' & ? & _) & _)]; naive_solver.
Qed.

Lemma ss_coll t q2 p' w2 :
  K t q2 = Some (PManyOne p') → V' t (Priv q2) = Some w2 →
  (w = VRef t ∧ q2 = q ∧ ∃ ys, V t (Priv q) = Some (OL ys) ∧ w2 = OL (filter (λ y, y ≠ VRef x) ys ++ [VRef x])) ∨
  (w ≠ VRef t ∧ V x (Priv p) = Some (OV (VRef t)) ∧ q2 = q ∧ ∃ ys, V t (Priv q) = Some (OL ys) ∧ w2 = OL (filter (λ y, y ≠ VRef x) ys)) ∨
  ((q2 = q → w ≠ VRef t ∧ V x (Priv p) ≠ Some (OV (VRef t))) ∧ V t (Priv q2) = Some w2).
Proof.
  intros Hk2 Hw2. assert ((t, Priv q2) ≠ (x, Priv p)) as Hne by naive_solver.
  destruct (decide (q2 = q)) as [->|Hq]; cycle 1.
  { right; right. split; [done|]. rewrite <- Hw2. symmetry.
    apply (ss_frame _ _ _ _ _ _ HS); [done|naive_solver]. }
  destruct (decide (w = VRef t)) as [Ht|Ht].
  { left. destruct Hw as [->|(t' & ys & -> & _ & Hvt)]; [done|]. simplify_eq.
    split_and!; [done..|]. exists ys. split; [done|].
    rewrite (ss_new _ _ _ _ _ _ HS t ys) in Hw2 by done. by simplify_eq. }
  destruct (decide (V x (Priv p) = Some (OV (VRef t)))) as [Hu|Hu].
  { right; left. destruct (lk_single _ _ HL _ _ _ _ Hk Hu) as [|(t' & ys & [= <-] & _ & Hvt & _)]; [done|].
    split_and!; [done..|]. exists ys. split; [done|].
    rewrite (ss_old _ _ _ _ _ _ HS t ys) in Hw2 by done. by simplify_eq. }
  right; right. split; [done|]. rewrite <- Hw2. symmetry.
  apply (ss_frame _ _ _ _ _ _ HS); [done|]. intros _. done.
Qed.

Lemma Links_SetSingle : Links K V'.
Proof using Type*.
  split.
  - intros x2 p2 q2 w2 Hk2 Hw2.
    destruct (decide ((x2, p2) = (x, p))) as [[= -> ->]|Hne].
    + simplify_eq. rewrite (ss_self _ _ _ _ _ _ HS) in Hw2. simplify_eq.
      destruct Hw as [->|(t & ys & -> & He & Hvt)]; [by left|right].
      exists t, (filter (λ y, y ≠ VRef x) ys ++ [VRef x]). split_and!; [done..| |].
      * by apply (ss_new _ _ _ _ _ _ HS).
      * apply elem_of_app. right. by apply elem_of_list_singleton.
    + rewrite ss_other in Hw2; [|done|congruence].
      destruct (lk_single _ _ HL _ _ _ _ Hk2 Hw2) as [->|(t & ys & -> & He & Hvt & Hin)]; [by left|right].
      pose proof He as (_ & p' & Hkt & Hr).
      assert (∃ w3, V' t (Priv q2) = Some w3) as [w3 Hw3].
      { destruct (decide (q2 = q ∧ w = VRef t)) as [[-> ->]|Hn1].
        { eexists. by eapply (ss_new _ _ _ _ _ _ HS). }
        destruct (decide (q2 = q ∧ V x (Priv p) = Some (OV (VRef t)))) as [[-> ?]|Hn2].
        { eexists. eapply (ss_old _ _ _ _ _ _ HS); [done| |done]. naive_solver. }
        exists (OL ys). rewrite <- Hvt. apply (ss_frame _ _ _ _ _ _ HS); naive_solver. }
      assert (q2 = q → x2 ≠ x ∨ V x (Priv p) ≠ Some (OV (VRef t))) as Hx2.
      { intros ->. destruct (decide (x2 = x)) as [->|]; [|by left]. right. intros Hvx.
        destruct (lk_single _ _ HL _ _ _ _ Hk Hvx) as [|(t' & ys' & [= <-] & He' & _)]; [done|].
        by rewrite (ends_fun _ _ _ _ _ He He') in Hne. }
      destruct (ss_coll _ _ _ _ Hkt Hw3) as [(-> & -> & ys' & E & ->)|[(? & ? & -> & ys' & E & ->)|(? & E)]];
        rewrite E in Hvt; simplify_eq.
      * exists t. eexists. split_and!; [done..|]. apply elem_of_app.
        destruct (decide (x2 = x)) as [->|]; [right; by apply elem_of_list_singleton|left].
        apply elem_of_list_filter. split; [congruence|done].
      * exists t. eexists. split_and!; [done..|]. apply elem_of_list_filter. split; [|done].
        destruct Hx2; [done|congruence|done].
      * exists t. eexists. split_and!; done.
  - intros t q2 p' w2 Hkt Hw2.
    (* a member other than x keeps its reference *)
    assert (∀ ys, V t (Priv q2) = Some (OL ys) →
      NoDup ys ∧ ∀ y, y ∈ ys → (q2 = q → y = VRef x → V x (Priv p) ≠ Some (OV (VRef t))) →
      ∃ x2 p2, y = VRef x2 ∧ ends_one_many K x2 p2 t q2 ∧ V' x2 (Priv p2) = Some (OV (VRef t))) as Hgo.
    { intros ys Hys. destruct (lk_coll _ _ HL _ _ _ _ Hkt Hys) as (? & [= <-] & Hnd & Hm).
      split; [done|]. intros y Hy Hnx. destruct (Hm y Hy) as (x2 & p2 & -> & He & Hvx2).
      exists x2, p2. split_and!; [done..|]. rewrite ss_other; [done| |].
      - intros [= -> ->]. destruct He as (Hk2 & _). simplify_eq. naive_solver.
      - destruct He as (Hk2 & _). congruence. }
    destruct (ss_coll _ _ _ _ Hkt Hw2) as [(-> & -> & ys & E & ->)|[(? & ? & -> & ys & E & ->)|(Hn & E)]].
    + destruct (Hgo _ E) as [Hnd Hm]. eexists. split_and!; [done| |].
      * apply NoDup_app. split_and!; [by apply NoDup_filter| |by apply NoDup_singleton].
        intros y [? _]%elem_of_list_filter Hy2%elem_of_list_singleton. done.
      * intros y [[Hyx Hy]%elem_of_list_filter|Hy%elem_of_list_singleton]%elem_of_app; [|subst y].
        -- apply Hm; [done|]. by intros _ ->.
        -- exists x, p. split_and!; [done| |by apply (ss_self _ _ _ _ _ _ HS)].
           destruct Hw as [|(? & ? & [= <-] & ? & _)]; done.
    + destruct (Hgo _ E) as [Hnd Hm]. eexists. split_and!; [done|by apply NoDup_filter|].
      intros y [Hyx Hy]%elem_of_list_filter. apply Hm; [done|]. by intros _ ->.
    + destruct w2 as [w2|ys].
      { destruct (lk_coll _ _ HL _ _ _ _ Hkt E) as (? & ? & _). done. }
      destruct (Hgo _ E) as [Hnd Hm]. eexists. split_and!; [done..|].
      intros y Hy. apply Hm; [done|]. naive_solver.
  - intros x2 p2 q2 w2 Hk2 Hw2. rewrite ss_other in Hw2; [|naive_solver|congruence].
    destruct (lk_one_one _ _ HL _ _ _ _ Hk2 Hw2) as [->|(y & -> & [He1 He2] & Hvy)]; [by left|right].
    exists y. split_and!; [done..|]. rewrite ss_other; [done|naive_solver|congruence].
  - intros x2 p2 q2 w2 Hk2 Hw2. rewrite ss_other in Hw2; [|naive_solver|congruence].
    destruct (lk_many_many _ _ HL _ _ _ _ Hk2 Hw2) as (ys & -> & Hm). exists ys. split; [done|].
    intros e He. destruct (Hm e He) as (y & xs & -> & [He1 He2] & Hvy & Hin). exists y, xs.
    split_and!; [done..| |done]. rewrite ss_other; [done|naive_solver|congruence].
Qed.
End set_single.

Section set_pair.
Context V V' x p q w v0 (HL : Links K V) (Hpq : p ≠ q) (Hk : K x p = Some (POneOne q))
  (Hv0 : V x (Priv p) = Some v0)
  (Hw : w = VNone ∨ ∃ y c, w = VRef y ∧ ends_one_one K x p y q ∧ V y (Priv q) = Some c)
  (HS : SetPair V V' x p q w).

Lemma sp_other o p2 :
  (∀ p', K o p2 ≠ Some (POneOne p')) → V' o (Priv p2) = V o (Priv p2).
Proof using Type*.
  intros Hno. apply (sp_frame _ _ _ _ _ _ HS).
  - intros [= -> ->]. naive_solver.
  - intros [= ->]. split.
    + intros ->. destruct Hw as [|(y & c & [= <-] & [_ ?] & _)]; naive_solver.
    + intros E. destruct (lk_one_one _ _ HL _ _ _ _ Hk E) as [|(y & [= <-] & [_ ?] & _)]; naive_solver.
  - intros [= ->] y -> E. destruct Hw as [|(? & c & [= <-] & [_ Hy] & _)]; [done|].
    destruct (lk_one_one _ _ HL _ _ _ _ Hy E) as [|(y' & [= <-] & [_ ?] & _)]; naive_solver.
Qed.

Lemma Links_SetPair : Links K V'.
Proof using Type*.
  split.
  - intros x2 p2 q2 w2 Hk2 Hw2. rewrite sp_other in Hw2; [|congruence].
    destruct (lk_single _ _ HL _ _ _ _ Hk2 Hw2) as [->|(t & ys & -> & He & Hvt & Hin)]; [by left|right].
    exists t, ys. split_and!; [done..| |done]. destruct He as (_ & p' & ? & _).
    rewrite sp_other; [done|congruence].
  - intros t q2 p' w2 Hkt Hw2. rewrite sp_other in Hw2; [|congruence].
    destruct (lk_coll _ _ HL _ _ _ _ Hkt Hw2) as (ys & -> & Hnd & Hm). exists ys. split_and!; [done..|].
    intros y Hy. destruct (Hm y Hy) as (x2 & p2 & -> & He & Hvx). exists x2, p2.
    split_and!; [done..|]. destruct He as (? & _). rewrite sp_other; [done|congruence].
  - intros x2 p2 q2 w2 Hk2 Hw2.
    destruct (decide ((x2, p2) = (x, p))) as [[= -> ->]|Hn1].
    { simplify_eq. rewrite (sp_self _ _ _ _ _ _ HS) in Hw2. simplify_eq.
      destruct Hw as [->|(y & c & -> & He & _)]; [by left|right]. exists y.
      split_and!; [done..|]. by apply (sp_new _ _ _ _ _ _ HS). }
    destruct (decide (w = VRef x2 ∧ p2 = q)) as [[-> ->]|Hn2].
    { destruct Hw as [|(y & c & [= <-] & [He1 He2] & _)]; [done|]. simplify_eq.
      rewrite (sp_new _ _ _ _ _ _ HS x2) in Hw2 by done. simplify_eq. right.
      exists x. split_and!; [done..|]. by apply (sp_self _ _ _ _ _ _ HS). }
    destruct (decide (p2 = q ∧ V x (Priv p) = Some (OV (VRef x2)))) as [[-> Hu]|Hn3].
    { rewrite (sp_old _ _ _ _ _ _ HS x2) in Hw2; [|done|naive_solver]. simplify_eq. by left. }
    assert (Decision (p2 = p ∧ ∃ y, w = VRef y ∧ V y (Priv q) = Some (OV (VRef x2)))) as Hd.
    { destruct w; try (right; naive_solver).
      destruct (decide (p2 = p ∧ V o (Priv q) = Some (OV (VRef x2)))); [left|right]; naive_solver. }
    destruct Hd as [[-> (y & -> & Hz)]|Hn4].
    { rewrite (sp_widow _ _ _ _ _ _ HS y) in Hw2; [|done..|congruence]. simplify_eq. by left. }
    rewrite (sp_frame _ _ _ _ _ _ HS) in Hw2; [|naive_solver..].
    destruct (lk_one_one _ _ HL _ _ _ _ Hk2 Hw2) as [->|(z & -> & [He1 He2] & Hvz)]; [by left|right].
    exists z. split_and!; [done..|]. rewrite (sp_frame _ _ _ _ _ _ HS); [done|..].
    + intros [= -> ->]. naive_solver.
    + intros [= ->]. split.
      * intros ->. destruct Hw as [|(y & c & [= <-] & [_ Hy] & _)]; [done|]. simplify_eq.
        destruct (decide (x2 = x)) as [->|]; [done|]. apply Hn4. split; [done|]. eauto.
      * intros Hu. destruct (lk_one_one _ _ HL _ _ _ _ Hk Hu) as [|(y & [= <-] & [_ Hy] & Hvy)]; [done|].
        naive_solver.
    + intros [= ->] y -> Hvy. destruct Hw as [|(? & c & [= <-] & [_ Hy] & _)]; [done|].
      destruct (lk_one_one _ _ HL _ _ _ _ Hy Hvy) as [|(y' & [= <-] & [_ Hy'] & Hvy')]; [done|].
      naive_solver.
  - intros x2 p2 q2 w2 Hk2 Hw2. rewrite sp_other in Hw2; [|congruence].
    destruct (lk_many_many _ _ HL _ _ _ _ Hk2 Hw2) as (ys & -> & Hm). exists ys. split; [done|].
    intros e He. destruct (Hm e He) as (y & xs & -> & [He1 He2] & Hvy & Hin). exists y, xs.
    split_and!; [done..| |done]. rewrite sp_other; [done|congruence].
Qed.
End set_pair.

Section set_coll.
Context V V' t q p xs ys (HL : Links K V) (Hk : K t q = Some (PManyOne p))
  (Hxs : V t (Priv q) = Some (OL xs)) (Hnd : NoDup ys)
  (Hys : ∀ y, y ∈ ys → K y p = Some (POneMany q) ∧
     (V y (Priv p) = Some (OV VNone) ∨ V y (Priv p) = Some (OV (VRef t))))
  (HS : SetColl K V V' t q p ys).

Lemma sc_ends y : y ∈ ys → ends_one_many K y p t q.
Proof using Hk Hys.
  intros Hy. destruct (Hys y Hy) as [Hky _]. split; [done|]. exists p. split; [done|].
  left. split; [done|]. congruence.
Qed.

Lemma sc_other o p2 :
  (o, p2) ≠ (t, q) → (∀ q2, K o p2 ≠ Some (POneMany q2)) → V' o (Priv p2) = V o (Priv p2).
Proof using Type*.
  intros Hne Hno. apply (sc_frame _ _ _ _ _ _ _ HS).
  - congruence.
  - intros Ho [= ->]. destruct (Hys o Ho). naive_solver.
  - intros xs' pz [= <-] _ _ [? _]. naive_solver.
Qed.

Lemma Links_SetColl : Links K V'.
Proof using Type*.
  assert (∀ x, VRef x ∈ xs → ∃ p0, ends_one_many K x p0 t q ∧ V x (Priv p0) = Some (OV (VRef t))) as Hxs2.
  { destruct (lk_coll _ _ HL _ _ _ _ Hk Hxs) as (? & [= <-] & _ & Hm).
    intros x Hx. destruct (Hm _ Hx) as (x' & p0 & [= <-] & ? & ?). eauto. }
  split.
  - intros x2 p2 q2 w2 Hk2 Hw2.
    assert ((x2, p2) ≠ (t, q)) as Hn0 by (intros [= -> ->]; congruence).
    destruct (decide (x2 ∈ ys ∧ p2 = p)) as [[Hin ->]|Hn1].
    { rewrite (sc_new _ _ _ _ _ _ _ HS) in Hw2 by done. simplify_eq.
      destruct (Hys x2 Hin) as [? _]. assert (q2 = q) as -> by congruence. right.
      exists t, (map VRef ys). split_and!; [done|by apply sc_ends|by apply (sc_self _ _ _ _ _ _ _ HS)|].
      by apply (elem_of_list_fmap_1 VRef). }
    assert (Decision (VRef x2 ∈ xs ∧ ends_one_many K x2 p2 t q)) as Hd.
    { destruct (decide (VRef x2 ∈ xs ∧ K x2 p2 = Some (POneMany q) ∧ V x2 (Priv p2) = Some (OV (VRef t))))
        as [(?&?&?)|Hd].
      - left. split; [done|].
        destruct (lk_single _ _ HL x2 p2 q _ ltac:(done) ltac:(done)) as [|(?&?&[= <-]&?&_)]; done.
      - right. intros [Hin He]. apply Hd. split_and!; [done|by apply He|].
        destruct (Hxs2 _ Hin) as (p0 & He0 & ?). by rewrite (ends_fun _ _ _ _ _ He He0). }
    destruct Hd as [[Hin He]|Hn2].
    { destruct (decide (x2 ∈ ys)) as [Hy|Hy].
      { destruct Hn1. split; [done|]. eapply ends_fun; [done|by apply sc_ends]. }
      rewrite (sc_old _ _ _ _ _ _ _ HS xs) in Hw2 by done. simplify_eq. by left. }
    rewrite (sc_frame _ _ _ _ _ _ _ HS) in Hw2; [|congruence|naive_solver|naive_solver].
    destruct (lk_single _ _ HL _ _ _ _ Hk2 Hw2) as [->|(t2 & ys2 & -> & He & Hvt & Hin)]; [by left|right].
    assert ((t2, q2) ≠ (t, q)) as Hn3.
    { intros [= -> ->]. apply Hn2. simplify_eq. done. }
    exists t2, ys2. split_and!; [done..| |done]. destruct He as (_ & p' & ? & _).
    rewrite sc_other; [done|done|congruence].
  - intros t2 q2 p' w2 Hkt Hw2.
    destruct (decide ((t2, q2) = (t, q))) as [[= -> ->]|Hne].
    { rewrite (sc_self _ _ _ _ _ _ _ HS) in Hw2. simplify_eq. eexists. split_and!; [done| |].
      - apply (NoDup_fmap_2_strong VRef); naive_solver.
      - intros y (y' & -> & Hy)%elem_of_list_fmap. exists y', p.
        split_and!; [done|by apply sc_ends|by apply (sc_new _ _ _ _ _ _ _ HS)]. }
    rewrite sc_other in Hw2; [|done|congruence].
    destruct (lk_coll _ _ HL _ _ _ _ Hkt Hw2) as (ys2 & -> & ? & Hm). exists ys2. split_and!; [done..|].
    intros y Hy. destruct (Hm y Hy) as (x2 & p2 & -> & He & Hvx). exists x2, p2. split_and!; [done..|].
    assert (V x2 (Priv p2) ≠ Some (OV (VRef t)) ∨ K x2 p2 ≠ Some (POneMany q)) as Hno.
    { destruct (decide (t2 = t)) as [->|]; [|left; congruence]. right. destruct He as [? _]. congruence. }
    rewrite (sc_frame _ _ _ _ _ _ _ HS); [done|..].
    + intros [= -> ->]. destruct He as [? _]. congruence.
    + intros Hin [= ->]. destruct (Hys _ Hin) as [? [?|?]]; naive_solver.
    + intros xs' pz [= <-] ? Hin He2. simplify_eq. destruct (Hxs2 _ Hin) as (p0 & He0 & ?).
      rewrite (ends_fun _ _ _ _ _ He0 He2) in *. destruct He2 as [? _]. naive_solver.
  - intros x2 p2 q2 w2 Hk2 Hw2. rewrite sc_other in Hw2; [|naive_solver|congruence].
    destruct (lk_one_one _ _ HL _ _ _ _ Hk2 Hw2) as [->|(y & -> & [He1 He2] & Hvy)]; [by left|right].
    exists y. split_and!; [done..|]. rewrite sc_other; [done|naive_solver|congruence].
  - intros x2 p2 q2 w2 Hk2 Hw2. rewrite sc_other in Hw2; [|naive_solver|congruence].
    destruct (lk_many_many _ _ HL _ _ _ _ Hk2 Hw2) as (ys2 & -> & Hm). exists ys2. split; [done|].
    intros e He. destruct (Hm e He) as (y & xs2 & -> & [He1 He2] & Hvy & Hin). exists y, xs2.
    split_and!; [done..| |done]. rewrite sc_other; [done|naive_solver|congruence].
Qed.
End set_coll.

(** Many-to-many updates leave the other kinds of association alone. *)
Section many.
Context V V' x p y q (HL : Links K V) (Hpq : p ≠ q) (He : ends_many_many K x p y q)
  (Hfr : ∀ o k, (o, k) ≠ (x, Priv p) → (o, k) ≠ (y, Priv q) → V' o k = V o k).

Lemma many_other o p2 : (∀ q2, K o p2 ≠ Some (PManyMany q2)) → V' o (Priv p2) = V o (Priv p2).
Proof using He Hfr.
  destruct He as [H1 H2]. intros Hno. apply Hfr; intros [= -> ->]; naive_solver.
Qed.

Lemma Links_many :
  (∀ x2 p2 q2 w2, K x2 p2 = Some (PManyMany q2) → V' x2 (Priv p2) = Some w2 →
    ∃ ys, w2 = OL ys ∧
          ∀ e, e ∈ ys → ∃ y2 xs, e = VRef y2 ∧ ends_many_many K x2 p2 y2 q2 ∧
                                V' y2 (Priv q2) = Some (OL xs) ∧ VRef x2 ∈ xs) →
  Links K V'.
Proof using HL He Hfr.
  intros Hmm. split; [..|done].
  - intros x2 p2 q2 w2 Hk2 Hw2. rewrite many_other in Hw2; [|congruence].
    destruct (lk_single _ _ HL _ _ _ _ Hk2 Hw2) as [->|(t & ys & -> & He2 & Hvt & Hin)]; [by left|right].
    exists t, ys. split_and!; [done..| |done]. destruct He2 as (_ & p' & ? & _).
    rewrite many_other; [done|congruence].
  - intros t q2 p' w2 Hkt Hw2. rewrite many_other in Hw2; [|congruence].
    destruct (lk_coll _ _ HL _ _ _ _ Hkt Hw2) as (ys & -> & Hnd & Hm). exists ys. split_and!; [done..|].
    intros e Hin. destruct (Hm e Hin) as (x2 & p2 & -> & He2 & Hvx). exists x2, p2.
    split_and!; [done..|]. destruct He2 as (? & _). rewrite many_other; [done|congruence].
  - intros x2 p2 q2 w2 Hk2 Hw2. rewrite many_other in Hw2; [|congruence].
    destruct (lk_one_one _ _ HL _ _ _ _ Hk2 Hw2) as [->|(y2 & -> & [He1 He2] & Hvy)]; [by left|right].
    exists y2. split_and!; [done..|]. rewrite many_other; [done|congruence].
Qed.
End many.

Lemma Links_AddMany V V' x p y q ps qs :
  Links K V → p ≠ q → ends_many_many K x p y q →
  V x (Priv p) = Some (OL ps) → V y (Priv q) = Some (OL qs) →
  AddMany V V' x p y q → Links K V'.
Proof.
  intros HL Hpq He Hps Hqs [H1 H2 Hfr].
  specialize (H1 _ Hps). specialize (H2 _ Hqs).
  apply (Links_many V V' x p y q HL He Hfr). destruct He as [He1 He2].
  (* every collection only grows *)
  assert (∀ o k ys, V o k = Some (OL ys) → ∃ ys', V' o k = Some (OL ys') ∧ ∀ e, e ∈ ys → e ∈ ys') as Hmono.
  { intros o k ys Ho.
    destruct (decide ((o, k) = (x, Priv p))) as [[= -> ->]|Hn1].
    { simplify_eq. eexists. split; [done|]. intros. apply elem_of_app. by left. }
    destruct (decide ((o, k) = (y, Priv q))) as [[= -> ->]|Hn2].
    { simplify_eq. eexists. split; [done|]. intros. case_decide; [done|]. apply elem_of_app. by left. }
    exists ys. rewrite Hfr by done. done. }
  intros x2 p2 q2 w2 Hk2 Hw2.
  assert (∀ e, (∃ ys, V x2 (Priv p2) = Some (OL ys) ∧ e ∈ ys) → ∃ y2 xs, e = VRef y2 ∧ ends_many_many K x2 p2 y2 q2 ∧
                                V' y2 (Priv q2) = Some (OL xs) ∧ VRef x2 ∈ xs) as Hold.
  { intros e (ys & Hys & Hin).
    destruct (lk_many_many _ _ HL _ _ _ _ Hk2 Hys) as (? & [= <-] & Hm).
    destruct (Hm e Hin) as (y2 & xs & -> & ? & Hvy & Hin2).
    destruct (Hmono _ _ _ Hvy) as (ys' & ? & Hsub). exists y2, ys'. eauto. }
  destruct (decide ((x2, Priv p2) = (x, Priv p))) as [[= -> ->]|Hn1].
  { rewrite H1 in Hw2. simplify_eq. eexists. split; [done|].
    intros e [Hin|Hin%elem_of_list_singleton]%elem_of_app.
    - apply Hold. eauto.
    - subst e. exists y. eexists. split_and!; [done|by split|done|].
      case_decide; [done|]. apply elem_of_app. right. by apply elem_of_list_singleton. }
  destruct (decide ((x2, Priv p2) = (y, Priv q))) as [[= -> ->]|Hn2].
  { rewrite H2 in Hw2. simplify_eq. eexists. split; [done|].
    intros e Hin. case_decide as Hd.
    - apply Hold. eauto.
    - apply elem_of_app in Hin as [Hin|Hin%elem_of_list_singleton].
      + apply Hold. eauto.
      + subst e. exists x. eexists. split_and!; [done|by split|done|].
        apply elem_of_app. right. by apply elem_of_list_singleton. }
  rewrite Hfr in Hw2 by done.
  destruct (lk_many_many _ _ HL _ _ _ _ Hk2 Hw2) as (ys & -> & Hm). exists ys. split; [done|].
  intros e Hin. apply Hold. eauto.
Qed.

Lemma MMNoDup_AddMany V V' x p y q ps qs :
  Links K V → p ≠ q → ends_many_many K x p y q → MMNoDup K V →
  V x (Priv p) = Some (OL ps) → V y (Priv q) = Some (OL qs) → VRef y ∉ ps →
  AddMany V V' x p y q → MMNoDup K V'.
Proof.
  intros HL Hpq [He1 He2] Hnd Hps Hqs Hni [H1 H2 Hfr].
  specialize (H1 _ Hps). specialize (H2 _ Hqs).
  assert (∀ e l, NoDup l → (e : val) ∉ l → NoDup (l ++ [e])) as Happ.
  { intros e l ? Hne. apply NoDup_app. split_and!; [done| |by apply NoDup_singleton].
    intros z ? Hz%elem_of_list_singleton. by subst z. }
  intros x2 p2 q2 ys Hk2 Hv2.
  destruct (decide ((x2, Priv p2) = (x, Priv p))) as [[= -> ->]|Hn1].
  { rewrite H1 in Hv2. simplify_eq. apply Happ; [|done]. exact (Hnd _ _ _ _ He1 Hps). }
  destruct (decide ((x2, Priv p2) = (y, Priv q))) as [[= -> ->]|Hn2].
  { rewrite H2 in Hv2. simplify_eq. case_decide; [exact (Hnd _ _ _ _ He2 Hqs)|].
    apply Happ; [|done]. exact (Hnd _ _ _ _ He2 Hqs). }
  rewrite Hfr in Hv2 by done. exact (Hnd _ _ _ _ Hk2 Hv2).
Qed.

Lemma Links_RemoveMany V V' x p y q :
  Links K V → p ≠ q → ends_many_many K x p y q → MMNoDup K V →
  RemoveMany V V' x p y q → Links K V' ∧ MMNoDup K V'.
Proof.
  intros HL Hpq He Hnd [(a & b & Hp1 & Hna & Hp2) (a2 & b2 & Hq1 & Hna2 & Hq2) Hfr].
  pose proof He as [He1 He2].
  pose proof (Hnd _ _ _ _ He1 Hp1) as Hd1. pose proof (Hnd _ _ _ _ He2 Hq1) as Hd2.
  assert (VRef y ∉ a ++ b ∧ NoDup (a ++ b)) as [Hna' Hd1'].
  { rewrite <- Permutation_middle in Hd1. by apply NoDup_cons in Hd1. }
  assert (VRef x ∉ a2 ++ b2 ∧ NoDup (a2 ++ b2)) as [Hna2' Hd2'].
  { rewrite <- Permutation_middle in Hd2. by apply NoDup_cons in Hd2. }
  split; cycle 1.
  { intros x2 p2 q2 ys Hk2 Hv2.
    destruct (decide ((x2, Priv p2) = (x, Priv p))) as [[= -> ->]|Hn1]; [congruence|].
    destruct (decide ((x2, Priv p2) = (y, Priv q))) as [[= -> ->]|Hn2]; [congruence|].
    rewrite Hfr in Hv2 by done. exact (Hnd _ _ _ _ Hk2 Hv2). }
  apply (Links_many V V' x p y q HL He Hfr).
  (* membership after the removal *)
  assert (∀ o k e xs, V o k = Some (OL xs) → e ∈ xs →
     ((o, k) = (x, Priv p) → e ≠ VRef y) → ((o, k) = (y, Priv q) → e ≠ VRef x) →
     ∃ xs', V' o k = Some (OL xs') ∧ e ∈ xs') as Hstay.
  { intros o k e xs Ho Hin Hn1 Hn2.
    destruct (decide ((o, k) = (x, Priv p))) as [[= -> ->]|Hd].
    { simplify_eq. eexists. split; [done|]. rewrite <- Permutation_middle in Hin.
      apply elem_of_cons in Hin as [->|?]; [by destruct Hn1|done]. }
    destruct (decide ((o, k) = (y, Priv q))) as [[= -> ->]|Hd3].
    { simplify_eq. eexists. split; [done|]. rewrite <- Permutation_middle in Hin.
      apply elem_of_cons in Hin as [->|?]; [by destruct Hn2|done]. }
    exists xs. rewrite Hfr by done. done. }
  intros x2 p2 q2 w2 Hk2 Hw2.
  assert (∀ ys, V x2 (Priv p2) = Some (OL ys) → ∀ e, e ∈ ys →
     ((x2, p2) = (x, p) → e ≠ VRef y) → ((x2, p2) = (y, q) → e ≠ VRef x) →
     ∃ y2 xs, e = VRef y2 ∧ ends_many_many K x2 p2 y2 q2 ∧
                                V' y2 (Priv q2) = Some (OL xs) ∧ VRef x2 ∈ xs) as Hold.
  { intros ys Hys e Hin Hn1 Hn2.
    destruct (lk_many_many _ _ HL _ _ _ _ Hk2 Hys) as (? & [= <-] & Hm).
    destruct (Hm e Hin) as (y2 & xs & -> & [Hm1 Hm2] & Hvy & Hin2).
    destruct (Hstay _ _ (VRef x2) _ Hvy Hin2) as (xs' & ? & ?).
    - intros [= -> ->] [= ->]. assert (p2 = q) as -> by congruence. by apply Hn2.
    - intros [= -> ->] [= ->]. assert (p2 = p) as -> by congruence. by apply Hn1.
    - exists y2, xs'. done. }
  destruct (decide ((x2, Priv p2) = (x, Priv p))) as [[= -> ->]|Hn1].
  { rewrite Hp2 in Hw2. simplify_eq. eexists. split; [done|]. intros e Hin.
    eapply Hold; [done| |..].
    - rewrite <- Permutation_middle. by right.
    - intros _ ->. done.
    - intros [= -> ->]. done. }
  destruct (decide ((x2, Priv p2) = (y, Priv q))) as [[= -> ->]|Hn2].
  { rewrite Hq2 in Hw2. simplify_eq. eexists. split; [done|]. intros e Hin.
    eapply Hold; [done| |..].
    - rewrite <- Permutation_middle. by right.
    - intros [= -> ->]. done.
    - intros _ ->. done. }
  rewrite Hfr in Hw2 by done.
  destruct (lk_many_many _ _ HL _ _ _ _ Hk2 Hw2) as (ys & -> & _). exists ys. split; [done|].
  intros e Hin. eapply Hold; [done..|congruence|congruence].
Qed.
End links.
