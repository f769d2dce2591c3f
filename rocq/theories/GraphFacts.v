(** The references after a history. *)
From Coq Require Import String.
From stdpp Require Import prelude gmap.
From Verif Require Import PyStr PyHeap Schema Assoc AssocSpec HeapFacts LinksFacts AssocFacts AddRemoveFacts AssocExtra CtorFacts History HistorySpec HistoryFacts
  GraphSpec.

Section graph.
Context (S : schema) (Hde : distinct_ends S).
Notation K h := (pkind S h).
Notation inv := (inv S).
Definition core (h : heap) (G : graph) : Prop :=
  (∀ o, cls_of h o = g_cls G o) ∧
  (∀ x p t, g_one G x p = Some t ↔ single (K h x p) ∧ view h x (Priv p) = Some (OV (VRef t))) ∧
  (∀ x p y, g_many G x p y ↔ ∃ q ys, K h x p = Some (PManyMany q) ∧ view h x (Priv p) = Some (OL ys) ∧ VRef y ∈ ys).
Lemma single_dec k : single k ∨ ¬ single k.
Proof. destruct k as [[]|]; first [by left|by right; intros []]. Qed.
Lemma core_kind h G o p : core h G → g_kind S G o p = K h o p.
Proof. intros [H _]. unfold g_kind, pkind. by rewrite H. Qed.
Lemma single_view h x p w : inv h → single (K h x p) → view h x (Priv p) = Some w → w = OV VNone ∨ ∃ t, w = OV (VRef t).
Proof.
  intros [[_ HL] _] Hs Hw. destruct (K h x p) as [[]|] eqn:Hk; try done.
  - destruct (lk_single _ _ HL _ _ _ _ Hk Hw) as [|(t & ? & ? & _)]; eauto.
  - destruct (lk_one_one _ _ HL _ _ _ _ Hk Hw) as [|(t & ? & _)]; eauto.
Qed.
Lemma ends_kind K1 K2 x p t q : (∀ o r, K1 o r = K2 o r) → ends_one_many K1 x p t q → ends_one_many K2 x p t q.
Proof.
  intros HK [H1 (p' & H2 & H3)]. split; [by rewrite <- HK|]. exists p'. split; [by rewrite <- HK|].
  destruct H3 as [[-> H3]|[c H3]]; [left; split; [done|]; intros; rewrite <- HK; apply H3|right; exists c; by rewrite <- HK].
Qed.
Lemma core_shows h G : inv h → core h G → Shows S h G.
Proof.
  intros Hi HG. pose proof HG as (H1 & H2 & H3). assert (∀ o r, g_kind S G o r = K h o r) as HK by (intros; by apply core_kind).
  pose proof Hi as [[Hwf HL] Hnd]. split.
  - done.
  - intros x p t. by rewrite HK.
  - intros x p w. rewrite HK. intros Hs Hw Hn. destruct (single_view h x p w Hi Hs Hw) as [|[t ->]]; [done|].
    rewrite (proj2 (H2 x p t)) in Hn; done.
  - intros t q p' ys. rewrite HK. intros Hk Hv. destruct (lk_coll _ _ HL _ _ _ _ Hk Hv) as (? & [= <-] & Hn & Hm). split; [done|].
    intros v. split.
    + intros Hin. destruct (Hm v Hin) as (x & p & -> & He & Hx). exists x, p. split; [done|].
      split; [by eapply ends_kind; [intros; symmetry; apply HK|]|]. apply H2. split; [|done]. destruct He as [-> _]. done.
    + intros (x & p & -> & He & Ho). apply H2 in Ho as [_ Hx]. eapply ends_kind in He; [|exact HK].
      destruct (lk_single _ _ HL _ _ _ _ (proj1 He) Hx) as [|(t' & ys' & [= <-] & _ & Hy & Hin)]; [done|]. rewrite Hv in Hy. by injection Hy as <-.
  - intros x p q ys. rewrite HK. intros Hk Hv. split; [by eapply Hnd|]. intros v. split.
    + intros Hin. destruct (lk_many_many _ _ HL _ _ _ _ Hk Hv) as (? & [= <-] & Hm). destruct (Hm v Hin) as (y & xs & -> & _).
      exists y. split; [done|]. apply H3. eauto.
    + intros (y & -> & Hm). apply H3 in Hm as (q' & ys' & _ & Hv' & Hin). rewrite Hv in Hv'. by injection Hv' as ->.
  - intros x p y (q & ys & Hk & Hv & _)%H3. exists q, ys. by rewrite HK.
Qed.
Lemma shows_core h G : inv h → Shows S h G → core h G.
Proof.
  intros Hi [H1 H2 H3 H4 H5 H6]. assert (∀ o r, g_kind S G o r = K h o r) as HK by (intros; unfold g_kind, pkind; by rewrite H1).
  split; [done|]. split.
  - intros x p t. rewrite H2. by rewrite HK.
  - intros x p y. split.
    + intros Hm. destruct (H6 _ _ _ Hm) as (q & ys & Hk & Hv). exists q, ys. split; [by rewrite <- HK|]. split; [done|].
      apply (proj2 (H5 x p q ys Hk Hv)). eauto.
    + intros (q & ys & Hk & Hv & Hin). rewrite <- HK in Hk. apply (proj2 (H5 x p q ys Hk Hv)) in Hin as (y' & [= <-] & ?). done.
Qed.

(** One step: classes stay, single ends as in the new table, many-to-many
    collections unchanged. *)
Lemma core_one h G h' one' : core h G → same_classes h h' →
  (∀ x p t, single (K h x p) → one' x p = Some t ↔ view h' x (Priv p) = Some (OV (VRef t))) →
  (∀ x p, ¬ single (K h x p) → one' x p = None) →
  (∀ x p q, K h x p = Some (PManyMany q) → view h' x (Priv p) = view h x (Priv p)) →
  core h' (Graph (g_cls G) one' (g_many G)).
Proof.
  intros (H1 & H2 & H3) Hsc Ho Hn Hm. assert (∀ o r, K h' o r = K h o r) as HK by (intros; by apply pkind_same).
  split; [intros o; cbn [g_cls]; by rewrite Hsc|]. split; cbn [g_one g_many].
  - intros x p t. rewrite HK. destruct (single_dec (K h x p)) as [Hs|Hs]; [rewrite (Ho x p t Hs); naive_solver|].
    rewrite (Hn x p Hs). naive_solver.
  - intros x p y. rewrite H3. setoid_rewrite HK. split; intros (q & ys & Hk & Hv & Hin); exists q, ys; (split; [done|]);
      rewrite ?(Hm x p q Hk) in *; done.
Qed.

Lemma one_none h G x p : core h G → ¬ single (K h x p) → g_one G x p = None.
Proof. intros (_ & H & _) Hn. destruct (g_one G x p) as [t|] eqn:E; [|done]. by apply H in E as [? _]. Qed.
Lemma one_same h G x p t : core h G → single (K h x p) → g_one G x p = Some t ↔ view h x (Priv p) = Some (OV (VRef t)).
Proof. intros (_ & H & _) Hs. rewrite H. naive_solver. Qed.
Lemma target_view v t w : (v = VNone ∨ ∃ y, v = VRef y) → w = Some (OV v) → target v = Some t ↔ w = Some (OV (VRef t)).
Proof. intros [-> |[y ->]] ->; cbn [target]; naive_solver. Qed.
Lemma fits_ref h x p q v : fits_one_many S h x p q v → v = VNone ∨ ∃ y, v = VRef y.
Proof. intros [|(t & ? & ? & _)]; eauto. Qed.

Lemma graph_single f h G x p q v : inv h → core h G → K h x p = Some (POneMany q) → has_slot h x p → fits_one_many S h x p q v →
  ∃ h', setattr S (Datatypes.S f) (VRef x) p v h = (inl tt, h') ∧ core h' (Graph (g_cls G) (put (g_one G) [x] p (target v)) (g_many G)).
Proof.
  intros Hi HG Hk [s Hs] Hv. pose proof Hi as [HC _]. destruct (set_one_many_effect S f h x p q s v HC Hk Hs Hv) as (h' & E & HF & HS).
  exists h'. split; [done|].
  destruct (slotful_view h x p (proj1 HC)) as [w Hw]; [by exists s|].
  assert (∀ o r, (o, r) ≠ (x, p) → (∀ p', K h o r ≠ Some (PManyOne p')) → view h' o (Priv r) = view h o (Priv r)) as Hoth.
  { intros o r. eapply (ss_other (K h) (view h) (view h') x p q v); [apply HC|done|exact Hw|exact Hv|done]. }
  apply (core_one h G h'); [done|apply HF| | |].
  - intros o r t Hr. unfold put. case_decide as Hd.
    + destruct Hd as [-> ->%elem_of_list_singleton]. apply target_view; [by eapply fits_ref|]. apply (ss_self _ _ _ _ _ _ HS).
    + rewrite Hoth; [by apply one_same|..].
      * intros [= -> ->]. apply Hd. split; [done|]. by apply elem_of_list_singleton.
      * intros p' E'. by rewrite E' in Hr.
  - intros o r Hr. unfold put. case_decide as Hd; [|by eapply one_none].
    destruct Hd as [-> ->%elem_of_list_singleton]. rewrite Hk in Hr. by destruct Hr.
  - intros o r q2 Hr. apply Hoth; congruence.
Qed.
Lemma graph_pair f h G x p q v : inv h → core h G → K h x p = Some (POneOne q) → has_slot h x p → fits_one_one S h x p q v →
  ∃ h', setattr S (Datatypes.S (Datatypes.S f)) (VRef x) p v h = (inl tt, h') ∧ core h' (Graph (g_cls G) (pair_up (g_one G) x p q (target v)) (g_many G)).
Proof using Hde.
  intros Hi HG Hk [s Hs] Hv. pose proof Hi as [HC _]. pose proof HC as [Hwf HL].
  assert (p ≠ q) as Hpq by (intros ->; by destruct (pkind_ends S Hde h x q)).
  assert (v = VNone ∨ ∃ y c, v = VRef y ∧ ends_one_one (K h) x p y q ∧ slot h y (Priv q) = Some c) as Hv'.
  { destruct Hv as [|(y & -> & ? & [c ?])]; [by left|right; eauto 10]. }
  destruct (set_one_one_effect S f h x p q s v HC Hpq Hk Hs Hv') as (h' & E & HF & HS). exists h'. split; [done|].
  destruct (slotful_view h x p Hwf) as [w Hw]; [by exists s|].
  assert (v = VNone ∨ ∃ y w', v = VRef y ∧ ends_one_one (K h) x p y q ∧ view h y (Priv q) = Some w') as Hv2.
  { destruct Hv as [|(y & -> & ? & Hy)]; [by left|right]. destruct (slotful_view h y q Hwf Hy) as [w' ?]. eauto 10. }
  assert (∀ o r, (∀ p', K h o r ≠ Some (POneOne p')) → view h' o (Priv r) = view h o (Priv r)) as Hoth.
  { intros o r. eapply (sp_other (K h) (view h) (view h') x p q v w); try done. }
  assert (∀ y, target v = Some y → v = VRef y) as Htg by (intros y; destruct v; cbn [target]; congruence).
  assert (single (K h x p)) as Hsx by (by rewrite Hk).
  assert (∀ o, g_one G x p = Some o ↔ view h x (Priv p) = Some (OV (VRef o))) as Hxo by (intros; by apply one_same).
  assert (∀ o, (y ← target v; g_one G y q) = Some o ↔ ∃ y, v = VRef y ∧ view h y (Priv q) = Some (OV (VRef o))) as Hwd.
  { intros o. split.
    - intros (y & Hy & Ho)%bind_Some. exists y. split; [by apply Htg|]. by apply HG in Ho as [_ ?].
    - intros (y & -> & Ho). cbn [target mbind option_bind]. destruct Hv2 as [|(? & ? & [= <-] & [_ Hky] & _)]; [done|].
      apply (one_same h G y q o HG); [by rewrite Hky|done]. }
  apply (core_one h G h'); [done|apply HF| | |].
  - intros o r t Hr. unfold pair_up. case_decide as H1; [|case_decide as H2; [|case_decide as H3; [|case_decide as H4]]].
    + destruct H1 as [-> ->]. apply target_view; [destruct Hv as [|(y & ? & _)]; eauto|]. apply (sp_self _ _ _ _ _ _ HS).
    + destruct H2 as [-> H2%Htg]. rewrite (sp_new _ _ _ _ _ _ HS o H2). naive_solver.
    + destruct H3 as [-> H3%Hxo]. rewrite (sp_old _ _ _ _ _ _ HS o H3); [naive_solver|]. intros ->. by apply H2.
    + destruct H4 as [-> (y & Hy & Ho)%Hwd]. rewrite (sp_widow _ _ _ _ _ _ HS y o Hy Ho); [naive_solver|]. intros ->. by apply H1.
    + rewrite (sp_frame _ _ _ _ _ _ HS o (Priv r)); [by apply one_same|..].
      * intros [= -> ->]. by apply H1.
      * intros [= ->]. split; [intros ->; by apply H2|]. intros Hx%Hxo. by apply H3.
      * intros [= ->] y Hy Ho. apply H4. split; [done|]. apply Hwd. eauto.
  - intros o r Hr. unfold pair_up. case_decide as H1; [|case_decide as H2; [|case_decide as H3; [|case_decide as H4]]]; try done.
    + destruct H1 as [-> ->]. done.
    + destruct H2 as [-> H2%Htg]. destruct Hv2 as [|(y & ? & ? & [_ Hky] & _)]; [congruence|].
      assert (y = o) as -> by congruence. rewrite Hky in Hr. by destruct Hr.
    + by eapply one_none.
  - intros o r q2 Hr. apply Hoth. congruence.
Qed.
Lemma graph_gather f h G t q p l ys : inv h → core h G → K h t q = Some (PManyOne p) → has_slot h t q →
  h_lists h !! l = Some (map VRef ys) → loose h l → NoDup ys → (∀ y, y ∈ ys → K h y p = Some (POneMany q) ∧
        (view h y (Priv p) = Some (OV VNone) ∨ view h y (Priv p) = Some (OV (VRef t)))) →
  ∃ h', setattr S (Datatypes.S (Datatypes.S (Datatypes.S f))) (VRef t) q (VList l) h = (inl tt, h') ∧
    core h' (Graph (g_cls G) (gather (g_kind S G) (g_one G) t q p ys) (g_many G)).
Proof.
  intros Hi HG Hk [s Hs] Hl Hlo Hnd Hys. pose proof Hi as [HC _]. pose proof HC as [Hwf HL].
  destruct (set_many_one_effect S f h t q p s l ys HC Hk Hs Hl Hlo) as (h' & E & (Hwf' & Hsc & _) & HS); [intros; by apply Hys|].
  exists h'. split; [done|].
  destruct (slotful_view h t q Hwf) as [w Hw]; [by exists s|]. destruct (lk_coll _ _ HL _ _ _ _ Hk Hw) as (xs & -> & _ & Hmem).
  assert (∀ o r, g_one G o r = Some t ∧ g_kind S G o r = Some (POneMany q) ↔ ends_one_many (K h) o r t q ∧ VRef o ∈ xs) as Hmb.
  { intros o r. rewrite (core_kind h G o r HG). split.
    - intros [Ho Hko]. apply HG in Ho as [_ Ho]. destruct (lk_single _ _ HL _ _ _ _ Hko Ho) as [|(? & ? & [= <-] & He & Hv & Hin)]; [done|].
      rewrite Hw in Hv. injection Hv as <-. done.
    - intros [He Hin]. split; [|apply He]. apply (one_same h G o r t HG); [by rewrite (proj1 He)|].
      destruct (Hmem _ Hin) as (? & r' & [= <-] & He' & Ho). destruct He as [He (p1 & Hp1 & Hr1)], He' as [He' (p2 & Hp2 & Hr2)].
      assert (p2 = p1) as -> by congruence. assert (r' = r) as ->; [|done].
      destruct Hr1 as [[<- Hr1]|[c1 Hr1]], Hr2 as [[<- Hr2]|[c2 Hr2]]; [done|by eapply Hr1 in Hr2|by eapply Hr2 in Hr1|congruence]. }
  apply (core_one h G h'); [done|done| | |].
  - intros o r t' Hr. unfold gather. case_decide as H1; [|case_decide as H2].
    + destruct H1 as [-> H1]. rewrite (sc_new _ _ _ _ _ _ _ HS o H1). naive_solver.
    + apply Hmb in H2 as [He Hin]. destruct (decide (o ∈ ys)) as [Ho|Ho].
      * exfalso. apply H1. split; [|done]. destruct (Hys o Ho) as [Hko _]. destruct He as [He (p1 & Hp1 & Hr1)]. assert (p1 = p) as -> by congruence.
        destruct Hr1 as [[<- _]|[c Hr1]]; [done|]. congruence.
      * rewrite (sc_old _ _ _ _ _ _ _ HS xs o r Hw Hin Ho He). naive_solver.
    + rewrite (sc_frame _ _ _ _ _ _ _ HS o (Priv r)); [by apply one_same|..].
      * intros [= -> ->]. rewrite Hk in Hr. done.
      * intros Ho [= ->]. by apply H1.
      * intros xs' pz [= <-] Hx Hin He. rewrite Hw in Hx. injection Hx as <-. apply H2. by apply Hmb.
  - intros o r Hr. unfold gather. case_decide as H1; [|case_decide as H2]; [|done|by eapply one_none].
    destruct H1 as [-> H1]. destruct (Hys o H1) as [Hko _]. rewrite Hko in Hr. by destruct Hr.
  - intros o r q2 Hr. eapply (sc_other (K h) (view h) (view h') t q p xs ys); try done; first [by intros [= -> ->]; congruence|by intros ?; congruence|idtac].
Qed.
Lemma graph_assign h G h' xs p q v : inv h → core h G → same_classes h h' → AssignAll (view h) (view h') xs p q v →
  (∀ x, x ∈ xs → K h x p = Some (POneMany q)) → (v = VNone ∨ ∃ t p', v = VRef t ∧ K h t q = Some (PManyOne p')) →
  core h' (Graph (g_cls G) (put (g_one G) xs p (target v)) (g_many G)).
Proof.
  intros Hi HG Hsc HA Hxs Hv. pose proof Hi as [[Hwf HL] _].
  assert (∀ o r, (∀ p', K h o r ≠ Some (PManyOne p')) → (r = p → o ∉ xs) → view h' o (Priv r) = view h o (Priv r)) as Hoth.
  { intros o r Hno Hn. apply (aa_frame _ _ _ _ _ _ HA); [by intros [= ->]; apply Hn|..].
    - intros [= ->] _ ->. destruct Hv as [|(t & p' & [= <-] & ?)]; naive_solver.
    - intros [= ->] x Hx E. destruct (lk_single _ _ HL _ _ _ _ (Hxs _ Hx) E) as [|(? & ? & [= <-] & (_ & ? & ? & _) & _)]; naive_solver. }
  apply (core_one h G h'); [done|done| | |].
  - intros o r t Hr. unfold put. case_decide as Hd.
    + destruct Hd as [-> Hd]. apply target_view; [destruct Hv as [|(t' & ? & ? & _)]; eauto|]. by apply (aa_member _ _ _ _ _ _ HA).
    + rewrite Hoth; [by apply one_same| |naive_solver]. intros p' E'. by rewrite E' in Hr.
  - intros o r Hr. unfold put. case_decide as Hd; [|by eapply one_none]. destruct Hd as [-> Hd]. rewrite (Hxs _ Hd) in Hr. by destruct Hr.
  - intros o r q2 Hr. apply Hoth; [congruence|]. intros -> Hd. rewrite (Hxs _ Hd) in Hr. done.
Qed.

(** Many-to-many. *)
Lemma core_many h G h' many' : core h G → same_classes h h' →
  (∀ x p, single (K h x p) → view h' x (Priv p) = view h x (Priv p)) →
  (∀ x p y, many' x p y ↔ ∃ q ys, K h x p = Some (PManyMany q) ∧ view h' x (Priv p) = Some (OL ys) ∧ VRef y ∈ ys) →
  core h' (Graph (g_cls G) (g_one G) many').
Proof.
  intros (H1 & H2 & H3) Hsc Ho Hm. assert (∀ o r, K h' o r = K h o r) as HK by (intros; by apply pkind_same).
  split; [intros o; cbn [g_cls]; by rewrite Hsc|]. split; cbn [g_one g_many].
  - intros x p t. rewrite HK, H2. split; intros [Hs Hv]; (split; [done|]); [by rewrite Ho|by rewrite Ho in Hv].
  - intros x p y. rewrite Hm. by setoid_rewrite HK.
Qed.
(* one pair *)
Lemma graph_link1 h G h' t q p y ps qs : inv h → core h G → same_classes h h' → q ≠ p → ends_many_many (K h) t q y p →
  view h t (Priv q) = Some (OL ps) → view h y (Priv p) = Some (OL qs) → VRef y ∉ ps → AddMany (view h) (view h') t q y p →
  core h' (Graph (g_cls G) (g_one G) (λ x r z, g_many G x r z ∨ pairs t q p [y] x r z)).
Proof.
  intros Hi HG Hsc Hpq [He1 He2] Hv Hvy Hni HA. pose proof HG as (_ & _ & H3). apply (core_many h G h'); [done|done|..].
  - intros x r Hs. apply (am_frame _ _ _ _ _ _ HA); [intros [= -> ->]; by rewrite He1 in Hs|intros [= -> ->]; by rewrite He2 in Hs].
  - intros x r z. rewrite H3. unfold pairs. rewrite !elem_of_list_singleton.
    destruct (decide (x = t ∧ r = q)) as [[-> ->]|N1].
    { rewrite (am_self _ _ _ _ _ _ HA _ Hv). setoid_rewrite Hv. split.
      - intros [(q' & ys & Hk & [= <-] & Hin)|[(_ & _ & ->)|(_ & -> & _)]]; [| |done].
        + eexists _, _. split; [exact Hk|]. split; [done|]. apply elem_of_app. by left.
        + eexists _, _. split; [exact He1|]. split; [done|]. apply elem_of_app. right. by apply elem_of_list_singleton.
      - intros (q' & ys & Hk & [= <-] & [Hin|[= ->]%elem_of_list_singleton]%elem_of_app); [left; eauto|right; by left]. }
    destruct (decide (x = y ∧ r = p)) as [[-> ->]|N2].
    { assert (VRef t ∉ qs) as Hnt.
      { intros Hin. destruct (lk_many_many _ _ (proj2 (proj1 Hi)) _ _ _ _ He2 Hvy) as (? & [= <-] & Hm).
        destruct (Hm _ Hin) as (? & xs & [= <-] & _ & Hx & Hy). rewrite Hv in Hx. by injection Hx as <-. }
      rewrite (am_other _ _ _ _ _ _ HA _ Hvy), decide_False by done. setoid_rewrite Hvy. split.
      - intros [(q' & ys & Hk & [= <-] & Hin)|[(_ & -> & _)|(_ & _ & ->)]]; [|done|].
        + eexists _, _. split; [exact Hk|]. split; [done|]. apply elem_of_app. by left.
        + eexists _, _. split; [exact He2|]. split; [done|]. apply elem_of_app. right. by apply elem_of_list_singleton.
      - intros (q' & ys & Hk & [= <-] & [Hin|[= ->]%elem_of_list_singleton]%elem_of_app); [left; eauto|right; by right]. }
    rewrite (am_frame _ _ _ _ _ _ HA); [|by intros [= -> ->]; apply N1|by intros [= -> ->]; apply N2].
    split; [|by left]. intros [?|[(-> & -> & _)|(-> & -> & _)]]; [done|by destruct N1|by destruct N2].
Qed.
Lemma core_ext h G G' : core h G → (∀ o, g_cls G' o = g_cls G o) → (∀ o r, g_one G' o r = g_one G o r) →
  (∀ x r y, g_many G' x r y ↔ g_many G x r y) → core h G'.
Proof. intros (H1 & H2 & H3) E1 E2 E3. split; [intros; by rewrite E1|]. split; [intros; by rewrite E2|intros; by rewrite E3]. Qed.
Lemma pairs_cons t q p y ys x r z : pairs t q p (y :: ys) x r z ↔ pairs t q p [y] x r z ∨ pairs t q p ys x r z.
Proof. unfold pairs. rewrite !elem_of_cons, !elem_of_nil. naive_solver. Qed.
Lemma pairs_nil t q p x r z : ¬ pairs t q p [] x r z.
Proof. unfold pairs. rewrite !elem_of_nil. naive_solver. Qed.
Lemma graph_link f t q p ys : ∀ h G ps,
  inv h → core h G → K h t q = Some (PManyMany p) → view h t (Priv q) = Some (OL ps) → NoDup ys →
  (∀ y, y ∈ ys → ends_many_many (K h) t q y p ∧ VRef y ∉ ps ∧ ∃ xs, view h y (Priv p) = Some (OL xs)) →
  ∃ h', add S f (VRef t) q (map VRef ys) h = (inl tt, h') ∧ core h' (Graph (g_cls G) (g_one G) (λ x r z, g_many G x r z ∨ pairs t q p ys x r z)).
Proof using Hde.
  induction ys as [|y ys IH]; intros h G ps Hi HG Hk Hv Hnd Hys.
  { exists h. unfold add. rewrite obj_prop_pkind, Hk. split; [done|]. eapply core_ext; [exact HG|done|done|]. cbn [g_many].
    intros. split; [intros [?|[]%pairs_nil]; done|by left]. }
  apply NoDup_cons in Hnd as [Hny Hnd].
  assert (q ≠ p) as Hpq by (intros ->; by destruct (pkind_ends S Hde h t p)).
  destruct (Hys y) as (He & Hni & xs & Hx); [left|].
  destruct (add_many_many_exec S f h t q p y ps xs) as (h1 & E1 & HF1 & HA); [apply Hi|done..|].
  assert (∀ o r, K h1 o r = K h o r) as HK by (intros; by apply Frame_pkind).
  pose proof (graph_link1 h G h1 t q p y ps xs Hi HG (proj1 (proj2 HF1)) Hpq He Hv Hx Hni HA) as HG1.
  match type of HG1 with core _ ?g => set (G1 := g) in * end.
  destruct (IH h1 G1 (ps ++ [VRef y])) as (h' & E' & HG').
  - split; [split; [by eapply Frame_wf|]|].
    + eapply (Links_ext (K h) (K h1) (view h1)); [done|done|].
      eapply (Links_AddMany (K h) (view h) (view h1) t q y p); [apply Hi|done..].
    + assert (MMNoDup (K h) (view h1)) as Hmm.
      { eapply (MMNoDup_AddMany (K h) (view h) (view h1) t q y p); [apply Hi|done|done|apply Hi|done..]. }
      intros ????. rewrite HK. apply Hmm.
  - exact HG1.
  - by rewrite HK.
  - by apply (am_self _ _ _ _ _ _ HA).
  - done.
  - intros z Hz. destruct (Hys z) as (Hez & Hnz & zs & Hvz); [by right|]. split; [|split].
    + unfold ends_many_many. by rewrite !HK.
    + rewrite elem_of_app, elem_of_list_singleton. intros [?|[= ->]]; done.
    + rewrite (am_frame _ _ _ _ _ _ HA); [eauto|congruence|congruence].
  - exists h'. split.
    + revert E1 E'. unfold add. rewrite !obj_prop_pkind, HK, Hk. cbn [map for_each].
      intros E1 E'. destruct (bind_inv _ _ _ _ _ E1) as ([] & h2 & Ea & Eb).
      erewrite bind_inl; [|exact Ea]. injection Eb as <-. exact E'.
    + eapply core_ext; [exact HG'|done|done|]. cbn [g_many]. intros x r z. rewrite pairs_cons. naive_solver.
Qed.
Lemma graph_unlink1 h G h' t q p y ps qs : inv h → core h G → same_classes h h' → q ≠ p → ends_many_many (K h) t q y p →
  view h t (Priv q) = Some (OL ps) → view h y (Priv p) = Some (OL qs) →
  view h' t (Priv q) = Some (OL (filter (λ e, e ≠ VRef y) ps)) → view h' y (Priv p) = Some (OL (filter (λ e, e ≠ VRef t) qs)) →
  (∀ o k, (o, k) ≠ (t, Priv q) → (o, k) ≠ (y, Priv p) → view h' o k = view h o k) →
  core h' (Graph (g_cls G) (g_one G) (λ x r z, g_many G x r z ∧ ¬ pairs t q p [y] x r z)).
Proof.
  intros Hi HG Hsc Hpq [He1 He2] Hv Hvy Hv' Hvy' Hfr. pose proof HG as (_ & _ & H3). apply (core_many h G h'); [done|done|..].
  - intros x r Hs. apply Hfr; [intros [= -> ->]; by rewrite He1 in Hs|intros [= -> ->]; by rewrite He2 in Hs].
  - intros x r z. rewrite H3. unfold pairs. rewrite !elem_of_list_singleton.
    destruct (decide (x = t ∧ r = q)) as [[-> ->]|N1].
    { rewrite Hv'. setoid_rewrite Hv. split.
      - intros [(q' & ys & Hk & [= <-] & Hin) Hn]. eexists _, _. split; [exact Hk|]. split; [done|]. apply elem_of_list_filter. split; [|done].
        intros [= ->]. apply Hn. by left.
      - intros (q' & ys & Hk & [= <-] & [Hne Hin]%elem_of_list_filter). split; [eauto|]. intros [(_ & _ & ->)|(_ & -> & _)]; done. }
    destruct (decide (x = y ∧ r = p)) as [[-> ->]|N2].
    { rewrite Hvy'. setoid_rewrite Hvy. split.
      - intros [(q' & ys & Hk & [= <-] & Hin) Hn]. eexists _, _. split; [exact Hk|]. split; [done|]. apply elem_of_list_filter. split; [|done].
        intros [= ->]. apply Hn. by right.
      - intros (q' & ys & Hk & [= <-] & [Hne Hin]%elem_of_list_filter). split; [eauto|]. intros [(_ & -> & _)|(_ & _ & ->)]; done. }
    rewrite Hfr; [|by intros [= -> ->]; apply N1|by intros [= -> ->]; apply N2].
    split; [by intros [? _]|]. intros H. split; [done|]. intros [(-> & -> & _)|(-> & -> & _)]; [by destruct N1|by destruct N2].
Qed.
Lemma graph_unlink f t q p ys : ∀ h G ps,
  inv h → core h G → K h t q = Some (PManyMany p) → view h t (Priv q) = Some (OL ps) → NoDup ys → (∀ y, y ∈ ys → VRef y ∈ ps) →
  ∃ h', remove S f (VRef t) q (map VRef ys) h = (inl tt, h') ∧ core h' (Graph (g_cls G) (g_one G) (λ x r z, g_many G x r z ∧ ¬ pairs t q p ys x r z)).
Proof using Hde.
  induction ys as [|y ys IH]; intros h G ps Hi HG Hk Hv Hnd Hys.
  { exists h. unfold remove. rewrite obj_prop_pkind, Hk. split; [done|]. eapply core_ext; [exact HG|done|done|]. cbn [g_many].
    intros x r z. pose proof (pairs_nil t q p x r z). naive_solver. }
  apply NoDup_cons in Hnd as [Hny Hnd].
  assert (q ≠ p) as Hpq by (intros ->; by destruct (pkind_ends S Hde h t p)).
  assert (VRef y ∈ ps) as Hy by (apply Hys; left).
  destruct (lk_many_many _ _ (proj2 (proj1 Hi)) _ _ _ _ Hk Hv) as (? & [= <-] & Hm).
  destruct (Hm _ Hy) as (? & xs & [= <-] & He & Hx & Hin).
  destruct (remove_many_filter S f h t q p y ps xs (proj1 Hi) (proj2 Hi) Hpq He Hv Hx Hy) as (h1 & E1 & Hsc & Hv1 & Hx1 & Hfr & HC1 & Hnd1).
  assert (∀ o r, K h1 o r = K h o r) as HK by (intros; by apply pkind_same).
  pose proof (graph_unlink1 h G h1 t q p y ps xs Hi HG Hsc Hpq He Hv Hx Hv1 Hx1 Hfr) as HG1.
  match type of HG1 with core _ ?g => set (G1 := g) in * end.
  destruct (IH h1 G1 (filter (λ e, e ≠ VRef y) ps)) as (h' & E' & HG').
  - by split.
  - exact HG1.
  - by rewrite HK.
  - done.
  - done.
  - intros z Hz. apply elem_of_list_filter. split; [by intros [= ->]|]. apply Hys. by right.
  - exists h'. split.
    + revert E1 E'. unfold remove. rewrite !obj_prop_pkind, HK, Hk. cbn [map for_each].
      intros E1 E'. destruct (bind_inv _ _ _ _ _ E1) as ([] & h2 & Ea & Eb).
      erewrite bind_inl; [|exact Ea]. injection Eb as <-. exact E'.
    + eapply core_ext; [exact HG'|done|done|]. cbn [g_many]. intros x r z. rewrite pairs_cons. naive_solver.
Qed.

Lemma core_same h G h' : core h G → same_classes h h' →
  (∀ x p k, K h x p = Some k → match k with POneMany _ | POneOne _ | PManyMany _ => True | _ => False end → view h' x (Priv p) = view h x (Priv p)) →
  core h' G.
Proof.
  intros (H1 & H2 & H3) Hsc Hv. assert (∀ o r, K h' o r = K h o r) as HK by (intros; by apply pkind_same).
  split; [intros o; by rewrite Hsc|]. split.
  - intros x p t. rewrite H2, HK. destruct (K h x p) as [k|] eqn:Hk; [|by split; intros [[] _]]. cbn [single].
    destruct k; try (by split; intros [[] _]); by rewrite (Hv x p _ Hk).
  - intros x p y. rewrite H3. setoid_rewrite HK. split; intros (q & ys & Hk & Hx & Hin); exists q, ys; rewrite (Hv x p _ Hk I) in *; done.
Qed.
Lemma graph_set f h G x p v : inv h → core h G → adm_set S h x p v →
  ∃ h' G', setattr S (Datatypes.S (Datatypes.S f)) (VRef x) p v h = (inl tt, h') ∧ changes S G (OSet x p v) G' ∧ core h' G'.
Proof using Hde.
  intros Hi HG Ha. unfold adm_set in Ha. pose proof (core_kind h G x p HG) as Hgk. destruct (K h x p) as [[q|q|q|q| |q|p2 c]|] eqn:Hk; try done.
  - destruct Ha as [Hs Hv]. destruct (graph_single (Datatypes.S f) h G x p q v Hi HG Hk Hs Hv) as (h' & E & HG').
    eexists h', _. split; [done|]. split; [by eapply ch_single|done].
  - destruct Ha as [Hs Hv]. destruct (graph_pair f h G x p q v Hi HG Hk Hs Hv) as (h' & E & HG').
    eexists h', _. split; [done|]. split; [by eapply ch_pair|done].
  - assert (is_Some (cls_of h x)) as Hc. { unfold pkind in Hk. destruct (cls_of h x); [eauto|done]. }
    exists (hset x (Priv p) v h), G. split; [|split].
    + cbn [setattr]. rewrite obj_prop_pkind, Hk. by apply write_key_ok.
    + apply ch_plain. by rewrite Hgk.
    + eapply core_same; [done|apply same_classes_hset|]. intros o r k Hkr Hl. rewrite view_hset; [|done|by apply not_list_vlist].
      rewrite upd_ne; [done|]. intros [= -> ->]. rewrite Hk in Hkr. by simplify_eq.
  - destruct Ha as (Hs & q & Hk2 & Hv).
    destruct (setattr_resolves S f h x p p2 q v) as [f' Ef]; [right; eauto|done|].
    destruct (graph_single f' h G x p2 q v Hi HG Hk2 Hs Hv) as (h' & E & HG').
    eexists h', _. split; [by rewrite Ef|]. split; [by eapply ch_alias|done].
  - destruct Ha as (Hc & Hp & Hv). exists (hset x (key_of p) v h), G. split; [by apply set_plain|]. split; [apply ch_plain; by rewrite Hgk|].
    eapply core_same; [done|apply same_classes_hset|]. intros o r k Hkr Hl. rewrite view_hset; [|done|by apply not_list_vlist].
    rewrite Hp, upd_ne; [done|congruence].
Qed.
Lemma graph_set_list f h G t q ys : inv h → core h G → adm_set_list S h t q ys →
  ∃ h' G', (let* l := new_list (map VRef ys) in setattr S (Datatypes.S (Datatypes.S (Datatypes.S f))) (VRef t) q l) h = (inl tt, h') ∧
    changes S G (OSetList t q ys) G' ∧ core h' G'.
Proof using Hde.
  intros Hi HG Ha. destruct (new_list_Frame h (map VRef ys)) as (HF & Hlo & HV); [apply Hi|].
  set (l := fresh_list h) in *. set (h1 := lset l (map VRef ys) h) in *.
  assert (∀ o r, K h1 o r = K h o r) as HK by (intros; by apply Frame_pkind).
  assert (inv h1) as Hi1 by (by apply inv_new_list).
  assert (core h1 G) as HG1 by (eapply core_same; [exact HG|apply HF|]; intros; apply HV).
  assert (h_lists h1 !! l = Some (map VRef ys)) as Hl by (unfold h1; by rewrite lists_lset).
  assert (adm_set_list S h1 t q ys) as Ha1.
  { unfold adm_set_list, ends_many_many, has_slot in *. rewrite HK. destruct (K h t q) as [[]|]; try done; setoid_rewrite HK; setoid_rewrite HV; done. }
  assert (∀ r : (unit + exn) * heap, setattr S (Datatypes.S (Datatypes.S (Datatypes.S f))) (VRef t) q (VList l) h1 = r →
    (let* l := new_list (map VRef ys) in setattr S (Datatypes.S (Datatypes.S (Datatypes.S f))) (VRef t) q l) h = r) as Hrun by (intros r <-; reflexivity).
  clear Ha. unfold adm_set_list in Ha1. pose proof (core_kind h1 G t q HG1) as Hgk. destruct (K h1 t q) as [[p|p|p|p| |p|p2 c]|] eqn:Hk; try done.
  - destruct Ha1 as (Hs & Hnd & Hys). destruct (graph_gather f h1 G t q p l ys Hi1 HG1 Hk Hs Hl Hlo Hnd Hys) as (h' & E & HG').
    eexists h', _. split; [by apply Hrun|]. split; [by apply ch_gather|done].
  - destruct Ha1 as (Hv & Hnd & Hys). assert (p ≠ q) as Hpq by (intros ->; by destruct (pkind_ends S Hde h1 t q)).
    destruct (assign_many S (Datatypes.S (Datatypes.S f)) h1 t q p l ys (proj1 Hi1) (proj2 Hi1) Hpq Hk Hv Hl Hlo Hnd Hys)
      as (h' & E & Hsc & Hself & Hoth & Hfr & _).
    eexists h', _. split; [by apply Hrun|]. split; [by apply ch_link|]. apply (core_many h1 G h'); [done|done|..].
    + intros x r Hs. apply Hfr; [intros [= -> ->]; by rewrite Hk in Hs|]. intros [= ->] Hx. destruct (Hys x Hx) as [[_ Hkx] _]. by rewrite Hkx in Hs.
    + pose proof HG1 as (_ & _ & H3). intros x r z. rewrite H3. unfold pairs. destruct (decide (x = t ∧ r = q)) as [[-> ->]|N1].
      { rewrite Hself. setoid_rewrite Hv. split.
        - intros [(? & ? & _ & [= <-] & []%elem_of_nil)|[(_ & _ & Hin)|(_ & -> & _)]]; [|done]. eexists _, _. split; [exact Hk|]. split; [done|].
          by apply elem_of_list_fmap_1.
        - intros (? & ? & _ & [= <-] & (z' & [= ->] & Hin)%elem_of_list_fmap). right. by left. }
      destruct (decide (r = p ∧ x ∈ ys)) as [[-> Hx]|N2].
      { destruct (Hys x Hx) as [[_ Hkx] [xs Hxs]]. rewrite (Hoth x xs Hx Hxs). setoid_rewrite Hxs. split.
        - intros [(? & ? & _ & [= <-] & Hin)|[(-> & -> & _)|(_ & _ & ->)]]; [|by destruct N1|]; eexists _, _; (split; [exact Hkx|]); (split; [done|]);
            apply elem_of_app; [by left|right; by apply elem_of_list_singleton].
        - intros (? & ? & Hkx' & [= <-] & [Hin|[= ->]%elem_of_list_singleton]%elem_of_app); [left; eauto|right; by right]. }
      rewrite Hfr; [|by intros [= -> ->]; apply N1|by intros [= ->] ?; apply N2].
      split; [|by left]. intros [?|[(-> & -> & _)|(? & -> & _)]]; [done|by destruct N1|by destruct N2].
  - destruct Ha1 as (Hc & Hp). exists (hset t (key_of q) (VList l) h1), G. split; [apply Hrun; by apply set_plain|]. split; [apply ch_plain_list; by rewrite Hgk|].
    eapply core_same; [done|apply same_classes_hset|]. intros o r k Hkr Hlk. erewrite view_hset_list by done. rewrite Hp, upd_ne; [done|congruence].
Qed.
Lemma resolves_kind K1 K2 x p' p : (∀ o r, K1 o r = K2 o r) → resolves K2 x p' p → resolves K1 x p' p.
Proof. intros HK. unfold resolves. by setoid_rewrite HK. Qed.
Lemma graph_op f h G c : inv h → core h G → (match c with ONew _ _ => False | _ => True end) → adm_op S (Datatypes.S (Datatypes.S (Datatypes.S f))) h c →
  ∃ h' G', run_op S (Datatypes.S (Datatypes.S (Datatypes.S f))) c h = (inl tt, h') ∧ changes S G c G' ∧ core h' G'.
Proof using Hde.
  intros Hi HG Hc Ha. assert (∀ o r, g_kind S G o r = K h o r) as HK by (intros; by apply core_kind).
  destruct c as [ck kw|x p v|t q ys|t q ys|t q ys]; [done|..]; cbn [adm_op] in Ha.
  - exact (graph_set (Datatypes.S f) h G x p v Hi HG Ha).
  - exact (graph_set_list f h G t q ys Hi HG Ha).
  - unfold adm_add in Ha. destruct (K h t q) as [[]|] eqn:Hk; try done.
    + destruct Ha as ([xs Hv] & p & Hys).
      destruct (add_one_many_effect S (Datatypes.S f) h t q q0 p ys xs) as (h' & E & HF & HC' & HA & _); [apply Hi|done..|].
      eexists h', _. split; [exact E|]. split; [eapply (ch_add S G t q q0 p); [by rewrite HK|]; intros y Hy; eapply resolves_kind; [exact HK|by apply Hys]|].
      eapply (graph_assign h G h' ys p q (VRef t)); try done; [apply HF|intros x Hx; by apply Hys|right; eauto].
    + destruct Ha as (ps & Hv & Hnd & Hys). destruct (graph_link (Datatypes.S (Datatypes.S (Datatypes.S f))) t q q0 ys h G ps Hi HG Hk Hv Hnd Hys) as (h' & E & HG').
      eexists h', _. split; [exact E|]. split; [apply ch_add_link; by rewrite HK|done].
  - unfold adm_remove in Ha. destruct (K h t q) as [[]|] eqn:Hk; try done.
    + destruct Ha as (p & Hys).
      destruct (remove_one_many_effect S (Datatypes.S f) h t q q0 p ys) as (h' & E & HF & HC' & HA & _); [apply Hi|done..|].
      eexists h', _. split; [exact E|]. split; [eapply (ch_remove S G t q q0 p); [by rewrite HK|]; intros y Hy; eapply resolves_kind; [exact HK|by apply Hys]|].
      eapply (graph_assign h G h' ys p q VNone); try done; [apply HF|intros x Hx; by apply Hys|by left].
    + destruct Ha as (ps & Hv & Hnd & Hys). destruct (graph_unlink (Datatypes.S (Datatypes.S (Datatypes.S f))) t q q0 ys h G ps Hi HG Hk Hv Hnd Hys) as (h' & E & HG').
      eexists h', _. split; [exact E|]. split; [apply ch_unlink; by rewrite HK|done].
Qed.

(** Histories together with the heaps they are about. *)
Inductive hist : heap → graph → list op → heap → graph → Prop :=
  | hs_nil h G : hist h G [] h G
  | hs_still h G h1 cs h' G' : inv h1 → core h1 G → hist h1 G cs h' G' → hist h G cs h' G'
  | hs_op h G c h1 G1 cs h' G' : inv h1 → core h1 G1 → changes S G c G1 → hist h1 G1 cs h' G' → hist h G (c :: cs) h' G'
  | hs_new h G o ck vs h1 cs h' G' : g_cls G o = None → inv h1 → core h1 (created G o ck) →
      hist h1 (created G o ck) (map (λ '(p, v), OSet o p v) (given (mro S ck) vs) ++ cs) h' G' →
      hist h G (ONew ck (plain_args vs) :: cs) h' G'.
Lemma hist_history h G cs h' G' : hist h G cs h' G' → history S G cs G'.
Proof. induction 1; [constructor|done|by econstructor|by econstructor]. Qed.
Lemma hist_end h G cs h' G' : hist h G cs h' G' → inv h → core h G → inv h' ∧ core h' G'.
Proof. induction 1; auto. Qed.
Lemma hist_app h G cs h1 G1 ds h' G' : hist h G cs h1 G1 → hist h1 G1 ds h' G' → hist h G (cs ++ ds) h' G'.
Proof.
  induction 1 as [| | |h G o ck vs h2 cs h1 G1 Ho Hi HG Hh IH]; intros Hd; [done|eapply hs_still; eauto|cbn; eapply hs_op; eauto|].
  cbn [app]. eapply hs_new; [done|exact Hi|exact HG|]. rewrite app_assoc. by apply IH.
Qed.

Lemma core_blank h G o p v : inv h → core h G → is_Some (cls_of h o) → blank_slot h o p (OV VNone) → v = VNone →
  core (hset o (Priv p) v h) G.
Proof.
  intros Hi (H1 & H2 & H3) Hc Hb ->. split; [intros o'; by rewrite cls_hset|].
  assert (∀ o' r, K (hset o (Priv p) VNone h) o' r = K h o' r) as HK by (intros; by rewrite pkind_hset).
  assert (∀ o' r, view (hset o (Priv p) VNone h) o' (Priv r) = if decide ((o', r) = (o, p)) then Some (OV VNone) else view h o' (Priv r)) as HV.
  { intros o' r. rewrite view_hset by done. case_decide as Hd; [injection Hd as -> ->; by rewrite upd_eq|rewrite upd_ne; [done|congruence]]. }
  split.
  - intros x r y. rewrite H2, HK, HV. case_decide as Hd; [|done]. injection Hd as -> ->. destruct Hb as [-> | ->]; split; by intros [_ ?].
  - intros x r y. rewrite H3. setoid_rewrite HK. setoid_rewrite HV. case_decide as Hd; [|done]. injection Hd as -> ->.
    destruct Hb as [-> | ->]; split; intros (? & ? & _ & ? & _); done.
Qed.
Lemma core_blank_list h G o p : inv h → core h G → is_Some (cls_of h o) → blank_slot h o p (OL []) → core (hnew o (Priv p) [] h) G.
Proof.
  intros Hi (H1 & H2 & H3) [ck Hc] Hb. destruct (hnew_facts h o (Priv p) ck) as (HF1 & HV1 & _); [apply Hi|done|].
  split; [intros o'; by rewrite (Frame_cls h)|].
  assert (∀ o' r, K (hnew o (Priv p) [] h) o' r = K h o' r) as HK by (intros; by apply Frame_pkind).
  assert (∀ o' r, view (hnew o (Priv p) [] h) o' (Priv r) = if decide ((o', r) = (o, p)) then Some (OL []) else view h o' (Priv r)) as HV.
  { intros o' r. rewrite HV1. case_decide as Hd; [injection Hd as -> ->; by rewrite upd_eq|rewrite upd_ne; [done|congruence]]. }
  split.
  - intros x r y. rewrite H2, HK, HV. case_decide as Hd; [|done]. injection Hd as -> ->. destruct Hb as [-> | ->]; split; by intros [_ ?].
  - intros x r y. rewrite H3. setoid_rewrite HK. setoid_rewrite HV. case_decide as Hd; [|done]. injection Hd as -> ->.
    destruct Hb as [-> | ->]; split; intros (? & ? & _ & Hx & Hin); [done| |injection Hx as <-; by apply elem_of_nil in Hin..].
    injection Hx as <-; by apply elem_of_nil in Hin.
Qed.

(** The constructor. *)
Definition step_names (s : step) : list name :=
  match s with SOne p => [p] | SImpedance => [u "SequenceImpedance"; u "PhaseImpedance"; u "PerLengthImpedance"] | _ => [] end.
Definition step_ops (o : nat) (env : list (name * val)) (s : step) : list op :=
  map (λ '(p, v), OSet o p v) (omap (λ p, let v := env_get env p in if decide (v = VNone) then None else Some (p, v)) (step_names s)).
Lemma plain_changes G x p v G' : changes S G (OSet x p v) G' → g_kind S G x p = None → G' = G.
Proof. intros H Hk. inversion H; subst; try done; congruence. Qed.
Lemma plain_list_changes G x p ys G' : changes S G (OSetList x p ys) G' → g_kind S G x p = None → G' = G.
Proof. intros H Hk. inversion H; subst; try done; congruence. Qed.
Lemma none_changes h G x p G' : core h G → changes S G (OSet x p VNone) G' → (∀ t c, g_kind S G x p ≠ Some (PAlias t c)) →
  view h x (Priv p) = Some (OV VNone) → ∀ h', core h' G' → core h' G.
Proof.
  intros HG H Hna Hv h' HG'. assert (g_one G x p = None) as Hn.
  { destruct (g_one G x p) as [y|] eqn:E; [|done]. apply HG in E as [_ E]. congruence. }
  inversion H; subst; try done.
  - eapply core_ext; [exact HG'|done| |done]. intros o r. cbn [g_one]. unfold put. cbn [target]. case_decide as Hd; [|done].
    destruct Hd as [-> ->%elem_of_list_singleton]. done.
  - by destruct (Hna p0 c).
  - eapply core_ext; [exact HG'|done| |done]. intros o r. cbn [g_one]. unfold pair_up. cbn [target mbind option_bind]. case_decide as Hd.
    + destruct Hd as [-> ->]. done.
    + rewrite decide_False by (by intros [_ ?]). rewrite decide_False by (rewrite Hn; by intros [_ ?]). rewrite decide_False by (by intros [_ ?]). done.
Qed.
Lemma ctor_one f h G o p v : inv h → core h G → view h o (Priv p) = Some (OV VNone) → (∀ t c, K h o p ≠ Some (PAlias t c)) → adm_set S h o p v →
  ∃ h' G', setattr S (Datatypes.S (Datatypes.S (Datatypes.S f))) (VRef o) p v h = (inl tt, h') ∧
    hist h G (map (λ '(p, v), OSet o p v) (if decide (v = VNone) then [] else [(p, v)])) h' G' ∧ same_classes h h' ∧ inv h' ∧ core h' G'.
Proof using Hde.
  intros Hi HG Hv Hna Ha. destruct (graph_set (Datatypes.S f) h G o p v Hi HG Ha) as (h' & G' & E & Hch & HG').
  destruct (adm_set_inv S Hde (Datatypes.S f) h o p v Hi Ha) as (h2 & E2 & Hsc & Hi'). rewrite E in E2. injection E2 as <-.
  case_decide as Hd.
  - subst v. assert (core h' G) as HG2 by (eapply none_changes; [exact HG|exact Hch| |exact Hv|exact HG']; intros; by rewrite (core_kind h)).
    exists h', G. split; [done|]. split; [|done]. eapply hs_still; [exact Hi'|exact HG2|constructor].
  - exists h', G'. split; [done|]. split; [|done]. eapply hs_op; [exact Hi'|exact HG'|exact Hch|constructor].
Qed.
Lemma ctor_step f h G o env s : inv h → core h G → is_Some (cls_of h o) → adm_step S h o env s → (∀ p, not_list (env_get env p)) →
  ∃ h' G', run_step S (Datatypes.S (Datatypes.S (Datatypes.S f))) (VRef o) env s h = (inl tt, h') ∧ hist h G (step_ops o env s) h' G' ∧
    same_classes h h' ∧ inv h' ∧ core h' G'.
Proof using Hde.
  intros Hi HG Hc Ha Hnl. destruct (adm_step_inv S Hde f h o env s Hi Hc Ha) as (h' & E & Hsc & Hi').
  assert (∀ G2, core h' G2 → hist h G (step_ops o env s) h' G2 → ∃ h' G', run_step S (Datatypes.S (Datatypes.S (Datatypes.S f))) (VRef o) env s h = (inl tt, h') ∧ hist h G (step_ops o env s) h' G' ∧
    same_classes h h' ∧ inv h' ∧ core h' G') as Hend by (intros G2 ??; by exists h', G2).
  assert (core h' G → hist h G [] h' G) as Hst by (intros; eapply hs_still; [exact Hi'|done|constructor]).
  destruct s as [p|p|p|p|p|]; cbn [adm_step run_step] in *.
  - (* SAttr *) destruct Ha as (Hk & Hp & Hv). assert (adm_set S h o p (env_get env p)) as Ha by (unfold adm_set; by rewrite Hk).
    destruct (graph_set (Datatypes.S f) h G o p _ Hi HG Ha) as (h2 & G2 & E2 & Hch & HG2). rewrite E in E2. injection E2 as <-.
    apply plain_changes in Hch as ->; [|by rewrite (core_kind h)]. apply (Hend G); [done|]. by apply Hst.
  - (* SOne *) destruct Ha as (Hb & Hk & Ha). set (h1 := hset o (Priv p) VNone h) in *.
    assert (inv h1) as Hi1. { subst h1. eapply inv_blank; [done|done|done|done|done|]. by destruct (K h o p) as [[]|]. }
    assert (core h1 G) as HG1 by (by apply core_blank).
    assert (view h1 o (Priv p) = Some (OV VNone)) as Hv1 by (unfold h1; rewrite view_hset by done; by rewrite upd_eq).
    assert (∀ t c, K h1 o p ≠ Some (PAlias t c)) as Hna.
    { intros t c Ek. unfold h1 in Ek. rewrite pkind_hset in Ek. by rewrite Ek in Hk. }
    destruct (ctor_one f h1 G o p _ Hi1 HG1 Hv1 Hna Ha) as (h2 & G2 & E2 & Hh & _ & Hi2 & HG2).
    erewrite bind_inl in E; [|by apply write_key_ok]. fold h1 in E. rewrite E in E2. injection E2 as <-.
    apply (Hend G2); [done|]. eapply hs_still; [exact Hi1|exact HG1|]. unfold step_ops. cbn [step_names omap list_omap].
    revert Hh. case_decide; cbn [map]; done.
  - (* SMany *) destruct Ha as (Hb & Ha). cbv zeta in Ha.
    assert (env_get env p = VNone) as Ev.
    { specialize (Hnl p). destruct (K h o p) as [[]|]; try done; (destruct Ha as [?|(ys & (l & El & _) & _)]; [done|]); by destruct (Hnl l). }
    assert (match K h o p with Some (PManyOne _) | Some (PManyMany _) | Some (PManyOneDbl _) => True | _ => False end) as Hkk by (by destruct (K h o p) as [[]|]).
    assert (inv (hnew o (Priv p) [] h)) as Hi1.
    { apply inv_blank_list; [done..|]. by destruct (K h o p) as [[]|]. }
    assert (core (hnew o (Priv p) [] h) G) as HG1 by (by apply core_blank_list).
    destruct Hc as [ck Hck]. destruct (hnew_facts h o (Priv p) ck) as (HF1 & HV1 & l & Hs1 & Hl1); [apply Hi|done|].
    assert (cls_of (hnew o (Priv p) [] h) o = Some ck) as Hc1 by (by rewrite (Frame_cls h)).
    assert (K h o p = lookup_prop S ck p) as HKo by (unfold pkind; by rewrite Hck).
    assert (core (hnew o (Priv p) [] (hnew o (Priv p) [] h)) G) as HG2.
    { apply core_blank_list; [done|done|rewrite Hc1; eauto|]. right. by rewrite HV1, upd_eq. }
    assert (h' = hnew o (Priv p) [] (hnew o (Priv p) [] h)) as ->.
    { erewrite bind_inl in E; [|done]. erewrite bind_inl in E; cycle 1.
      { apply write_key_ok. rewrite cls_lset, Hck. eauto. }
      rewrite decide_True in E by done.
      change (hset o (Priv p) (VList (fresh_list h)) (lset (fresh_list h) [] h)) with (hnew o (Priv p) [] h) in E.
      rewrite HKo in Hkk. destruct (lookup_prop S ck p) as [pp|] eqn:Ep; [|done].
      erewrite set_coll_nil in E; [by injection E as <-|done|done| |done|done]. by destruct pp. }
    apply (Hend G); [done|]. by apply Hst.
  - (* SPlainMany *) destruct Ha as (Hk & Hp & [Ev|(ys & l1 & El & _)]); [|by destruct (Hnl p l1)].
    rewrite decide_True in E by done. assert (adm_set_list S h o p []) as Ha by (unfold adm_set_list; by rewrite Hk).
    destruct (graph_set_list f h G o p [] Hi HG Ha) as (h2 & G2 & E2 & Hch & HG2). cbn [map] in E2. rewrite E in E2. injection E2 as <-.
    apply plain_list_changes in Hch as ->; [|by rewrite (core_kind h)]. apply (Hend G); [done|]. by apply Hst.
  - (* SPriv *) destruct Ha as (Hk & Hv). rewrite write_key_ok in E by done. injection E as <-.
    assert (core (hset o (Priv p) (env_get env p) h) G) as HG2.
    { eapply core_same; [done|apply same_classes_hset|]. intros o' r k Hkr Hl. rewrite view_hset; [|done|by apply not_list_vlist].
      rewrite upd_ne; [done|]. intros [= -> ->]. rewrite Hk in Hkr. by injection Hkr as <-. }
    apply (Hend G); [done|]. by apply Hst.
  - (* SImpedance *)
    destruct Ha as (q & c1 & c2 & Hb & Hk & Hk1 & Hk2 & Hfit & Huniq).
    assert (u "SequenceImpedance" ≠ u "PerLengthImpedance" ∧ u "PhaseImpedance" ≠ u "PerLengthImpedance" ∧
      u "SequenceImpedance" ≠ u "PhaseImpedance") as (HnSL & HnPL & HnSP) by (by vm_compute).
    unfold step_ops in *. cbn [step_names] in *.
    set (nS := u "SequenceImpedance") in *. set (nP := u "PhaseImpedance") in *. set (nL := u "PerLengthImpedance") in *.
    clearbody nS nP nL.
    set (h1 := hset o (Priv nS) VNone h) in *.
    set (h2 := hset o (Priv nP) VNone h1) in *.
    set (h3 := hset o (Priv nL) VNone h2) in *.
    assert (is_Some (cls_of h1 o)) as Hc1 by (by subst h1; rewrite cls_hset).
    assert (is_Some (cls_of h2 o)) as Hc2 by (by subst h2; rewrite cls_hset).
    assert (∀ o r, K h3 o r = K h o r) as HK. { intros. subst h3 h2 h1. by rewrite !pkind_hset. }
    assert (inv h1) as Hi1. { apply inv_write; [done..|]. intros p0 c [= <-]. rewrite Hk1. by intros [= <-]. }
    assert (inv h2) as Hi2. { apply inv_write; [done..|]. intros p0 c [= <-]. subst h1. rewrite pkind_hset, Hk2. by intros [= <-]. }
    assert (core h1 G) as HG1.
    { eapply core_same; [exact HG|apply same_classes_hset|]. intros o' r k Hkr Hl. unfold h1. rewrite view_hset by done.
      rewrite upd_ne; [done|]. intros [= -> ->]. rewrite Hk1 in Hkr. by injection Hkr as <-. }
    assert (core h2 G) as HG2.
    { eapply core_same; [exact HG1|apply same_classes_hset|]. intros o' r k Hkr Hl. unfold h2. rewrite view_hset by done.
      rewrite upd_ne; [done|]. intros [= -> ->]. unfold h1 in Hkr. rewrite pkind_hset, Hk2 in Hkr. by injection Hkr as <-. }
    assert (view h2 o (Priv nL) = view h o (Priv nL)) as Hv2.
    { subst h2. rewrite view_hset by done. rewrite upd_ne by congruence. subst h1. rewrite view_hset by done. by rewrite upd_ne by congruence. }
    assert (blank_slot h2 o nL (OV VNone)) as Hb2 by (unfold blank_slot; by rewrite Hv2).
    assert (inv h3) as Hi3. { eapply inv_blank; [done|done|done|done|done|]. subst h2 h1. by rewrite !pkind_hset, Hk. }
    assert (core h3 G) as HG3 by (by apply core_blank).
    assert (∀ p, p ∈ [nS; nP; nL] → fits_one_many S h3 o nL q (env_get env p)) as Hfit3.
    { intros p Hp. specialize (Hfit p Hp). subst h3 h2 h1.
      apply fits_hset; [done|done| |apply fits_hset; [done|done| |apply fits_hset; [done|done| |done]]];
        intros p'; rewrite ?pkind_hset; congruence. }
    assert (has_slot h3 o nL) as Hsl by (by apply has_slot_hset).
    assert (adm_set S h3 o nS (env_get env nS)) as A1.
    { unfold adm_set. rewrite HK, Hk1. split; [done|]. exists q. rewrite HK. split; [done|]. apply Hfit3. left. }
    assert (adm_set S h3 o nP (env_get env nP)) as A2.
    { unfold adm_set. rewrite HK, Hk2. split; [done|]. exists q. rewrite HK. split; [done|]. apply Hfit3. right; left. }
    assert (adm_set S h3 o nL (env_get env nL)) as A3.
    { unfold adm_set. rewrite HK, Hk. split; [done|]. apply Hfit3. right; right; left. }
    assert (∀ p, adm_set S h3 o p (env_get env p) → setattr S (Datatypes.S (Datatypes.S (Datatypes.S f))) (VRef o) p (env_get env p) h3 = (inl tt, h') →
      ∃ G2, core h' G2 ∧ hist h G [OSet o p (env_get env p)] h' G2) as Hgo.
    { intros p Hp E3. destruct (graph_set (Datatypes.S f) h3 G o p _ Hi3 HG3 Hp) as (h4 & G4 & E4 & Hch & HG4). rewrite E3 in E4. injection E4 as <-.
      exists G4. split; [done|]. eapply hs_still; [exact Hi3|exact HG3|]. eapply hs_op; [exact Hi'|exact HG4|exact Hch|constructor]. }
    erewrite bind_inl in E; [|by apply write_key_ok]. erewrite bind_inl in E; [|by apply write_key_ok].
    erewrite bind_inl in E; [|by apply write_key_ok]. fold h1 h2 h3 in E.
    pose proof (elem_of_list_here nS [nP; nL]) as M1. assert (nP ∈ [nS; nP; nL]) as M2 by (right; left). assert (nL ∈ [nS; nP; nL]) as M3 by (right; right; left).
    assert (∀ b1 b2, b1 ∈ [nS; nP; nL] → b2 ∈ [nS; nP; nL] → b1 ≠ b2 → env_get env b1 ≠ VNone → env_get env b2 = VNone) as Hu.
    { intros b1 b2 H1 H2 Hne Hn. destruct (decide (env_get env b2 = VNone)); [done|]. destruct Hne. by apply Huniq. }
    cbn [omap list_omap] in *. cbv zeta in *.
    destruct (decide (env_get env nS = VNone)) as [Eseq|Nseq].
    + rewrite (decide_False (P := env_get env nS ≠ VNone)) in E by tauto.
      destruct (decide (env_get env nP = VNone)) as [Epha|Npha].
      * rewrite (decide_False (P := env_get env nP ≠ VNone)) in E by tauto.
        destruct (decide (env_get env nL = VNone)) as [Eper|Nper].
        -- rewrite decide_False in E by tauto. injection E as <-. apply (Hend G); [done|]. by apply Hst.
        -- rewrite decide_True in E by done. destruct (Hgo nL A3 E) as (G2 & ? & ?). by apply (Hend G2).
      * rewrite decide_True in E by done. assert (env_get env nL = VNone) as Eper by (by apply (Hu nP)). rewrite decide_False in E by tauto.
        destruct (Hgo nP A2 E) as (G2 & ? & ?). apply (Hend G2); [done|]. rewrite decide_True by done. done.
    + rewrite decide_True in E by done. assert (env_get env nP = VNone) as Epha by (by apply (Hu nS)). assert (env_get env nL = VNone) as Eper by (by apply (Hu nS)).
      rewrite decide_False in E by tauto. destruct (Hgo nS A1 E) as (G2 & ? & ?). apply (Hend G2); [done|]. rewrite !decide_True by done. done.
Qed.

Lemma bind_none ps kw : bind_args ps [] kw = Some (map (λ '(p, d), (p, default d (assoc p kw))) ps, [], filter (λ '(k, _), assoc k ps = None) kw).
Proof.
  assert (∀ l : list (name * val), existsb (λ '(k, _), match assoc k ([] : list (name * val)) with Some _ => true | None => false end) l = false) as Hx.
  { induction l as [|[k v] l IH]; [done|]. cbn [existsb]. by rewrite IH. }
  unfold bind_args. destruct ps as [|[p d] ps]; cbn [bind_pos]; by rewrite Hx.
Qed.
Lemma env_bound ps kw p : env_get (map (λ '(p, d), (p, default d (assoc p kw))) ps) p = default VNone (d ← assoc p ps; Some (default d (assoc p kw))).
Proof.
  unfold env_get. induction ps as [|[a d] ps IH]; [done|]. cbn [map assoc]. destruct (str_eqb p a) eqn:E; [|exact IH].
  apply str_eqb_eq in E as ->. done.
Qed.
(** What the chain needs of the classes: no list and no reference other than
    None among the defaults. *)
Definition simple_params (c : cls) : Prop :=
  Forall (λ pd, not_list pd.2) (c_params c) ∧ ∀ p, p ∈ ref_names c → p ≠ u "UUID" ∧ (assoc p (c_params c) = None ∨ assoc p (c_params c) = Some VNone).
Lemma assoc_Forall {A} (P : A → Prop) (l : list (name * A)) k v : Forall (λ nv, P nv.2) l → assoc k l = Some v → P v.
Proof.
  induction l as [|[a b] l IH]; [done|]. intros [H1 H2]%Forall_cons. cbn [assoc]. destruct (str_eqb k a); [by intros [= <-]|by apply IH].
Qed.
Lemma given_none cs kw : Forall simple_params cs → (∀ c p, c ∈ cs → p ∈ ref_names c → assoc p kw = None) → given cs kw = [].
Proof.
  revert kw. induction cs as [|c cs IH]; intros kw Hs Hn; [done|]. apply Forall_cons in Hs as [Hc Hs]. cbn [given]. rewrite IH; [|done|].
  - rewrite app_nil_r. assert (∀ l, (∀ p, p ∈ l → assoc p kw = None) →
      omap (λ p, _ ← assoc p (c_params c); v ← assoc p kw; if decide (v = VNone) then None else Some (p, v)) l = []) as H.
    { clear. induction l as [|p l IH]; intros Hl; [done|]. cbn [omap list_omap]. rewrite (Hl p) by left. cbn [mbind option_bind].
      destruct (assoc p (c_params c)); cbn; (apply IH; intros; apply Hl; by right). }
    apply H. intros p Hp. apply (Hn c); [left|done].
  - intros c' p Hc' Hp. specialize (Hn c' p (elem_of_list_further _ _ _ Hc') Hp). clear -Hn. induction kw as [|[k v] kw IH]; [done|].
    cbn [assoc] in Hn. destruct (str_eqb p k) eqn:E; [done|]. rewrite filter_cons. case_decide; [|by apply IH]. cbn [assoc]. rewrite E. by apply IH.
Qed.
Lemma ctor_steps f o env ss : (∀ p, not_list (env_get env p)) → ∀ h G, inv h → core h G → is_Some (cls_of h o) →
  adm_steps S (Datatypes.S (Datatypes.S (Datatypes.S f))) h o env ss →
  ∃ h' G', for_each ss (run_step S (Datatypes.S (Datatypes.S (Datatypes.S f))) (VRef o) env) h = (inl tt, h') ∧
    hist h G (flat_map (step_ops o env) ss) h' G' ∧ same_classes h h' ∧ inv h' ∧ core h' G'.
Proof using Hde.
  intros Hnl. induction ss as [|s ss IH]; intros h G Hi HG Hc Ha.
  { exists h, G. split; [done|]. split; [constructor|done]. }
  destruct Ha as [Ha Hr]. destruct (ctor_step f h G o env s Hi HG Hc Ha Hnl) as (h1 & G1 & E1 & Hh1 & Hsc1 & Hi1 & HG1).
  destruct (IH h1 G1 Hi1 HG1) as (h2 & G2 & E2 & Hh2 & Hsc2 & Hi2 & HG2); [by rewrite Hsc1|by apply Hr|].
  exists h2, G2. split; [cbn [for_each]; by erewrite bind_inl|]. split; [cbn [flat_map]; by eapply hist_app|]. split; [by eapply same_classes_trans|done].
Qed.
Lemma steps_given o env c kw : simple_params c → env = map (λ '(p, d), (p, default d (assoc p kw))) (c_params c) →
  flat_map (step_ops o env) (c_steps c) =
  map (λ '(p, v), OSet o p v) (omap (λ p, _ ← assoc p (c_params c); v ← assoc p kw; if decide (v = VNone) then None else Some (p, v)) (ref_names c)).
Proof.
  intros [_ Hs] ->. unfold ref_names in *. induction (c_steps c) as [|s ss IH]; [done|]. cbn [flat_map]. rewrite IH.
  - rewrite omap_app, map_app. f_equal. unfold step_ops. f_equal. change (match s with SOne p => [p] | SImpedance => _ | _ => [] end) with (step_names s) in *.
    assert (∀ p, p ∈ step_names s → assoc p (c_params c) = None ∨ assoc p (c_params c) = Some VNone) as Hp.
    { intros p Hp. apply (Hs p). cbn [flat_map]. apply elem_of_app. by left. }
    clear -Hp. induction (step_names s) as [|p l IH]; [done|]. cbn [omap list_omap]. rewrite env_bound. rewrite IH by (intros; apply Hp; by right).
    destruct (Hp p) as [-> | ->]; [left|..]; cbn [mbind option_bind]; cbn [default from_option].
    + by rewrite decide_True by done.
    + destruct (assoc p kw) as [v|]; cbn [mbind option_bind default from_option]; [done|by rewrite decide_True by done].
  - intros p Hp. apply Hs. cbn [flat_map]. apply elem_of_app. by right.
Qed.
Lemma ctor_chain f o cs : ∀ h G kw, Forall simple_params cs → Forall (λ nv, not_list nv.2) kw → inv h → core h G → is_Some (cls_of h o) →
  adm_chain S (Datatypes.S (Datatypes.S (Datatypes.S f))) h o cs [] kw →
  ∃ h' G', init_chain S (Datatypes.S (Datatypes.S (Datatypes.S f))) cs (VRef o) [] kw h = (inl tt, h') ∧
    hist h G (map (λ '(p, v), OSet o p v) (given cs kw)) h' G' ∧ inv h' ∧ core h' G'.
Proof using Hde.
  induction cs as [|c cs IH]; intros h G kw Hs Hkw Hi HG Hc Ha.
  { destruct Ha as [_ ->]. exists h, G. split; [done|]. split; [constructor|done]. }
  apply Forall_cons in Hs as [Hsc Hs]. destruct Ha as (env & pos' & kw' & Eb & Hnk & Hst & Hnext).
  rewrite bind_none in Eb. injection Eb as Ee <- <-. set (kw' := filter (λ '(k, _), assoc k (c_params c) = None) kw) in *.
  assert (∀ p, not_list (env_get env p)) as Hnl.
  { intros p. rewrite <- Ee, env_bound. destruct (assoc p (c_params c)) as [d|] eqn:Ed; [|by intros ?]. cbn [mbind option_bind].
    destruct (assoc p kw) as [v|] eqn:Ev; cbn; [by eapply (assoc_Forall not_list)|]. by eapply (assoc_Forall not_list); [apply Hsc|]. }
  destruct (ctor_steps f o env (c_steps c) Hnl h G Hi HG Hc Hst) as (h1 & G1 & E1 & Hh1 & Hsc1 & Hi1 & HG1).
  rewrite (steps_given o env c kw Hsc (eq_sym Ee)) in Hh1.
  cbn [init_chain]. rewrite bind_none, Ee. fold kw'. cbn [given]. fold kw'. rewrite map_app. destruct (c_kw c) eqn:Ek.
  - destruct (Hnext eq_refl) as [Eso Hn]. destruct (IH h1 G1 kw' Hs) as (h2 & G2 & E2 & Hh2 & Hi2 & HG2); [|done|done|by rewrite Hsc1|by apply Hn|].
    { apply Forall_forall. intros x [_ Hx]%elem_of_list_filter. by eapply Forall_forall in Hkw. }
    exists h2, G2. split; [|split; [by eapply hist_app|done]]. simpl. erewrite bind_inl by exact E1. by rewrite Eso.
  - destruct (Hnk eq_refl) as [_ Hk0]. exists h1, G1. rewrite Hk0. split; [simpl; by erewrite bind_inl by exact E1|].
    rewrite (given_none cs []) by done. cbn [map]. by rewrite app_nil_r.
Qed.
Lemma ctor_op f h G ck vs : Forall simple_params (mro S ck) → Forall (λ nv, not_list nv.2) vs → inv h → core h G →
  adm_op S (Datatypes.S (Datatypes.S (Datatypes.S f))) h (ONew ck (plain_args vs)) →
  ∃ h' G', run_op S (Datatypes.S (Datatypes.S (Datatypes.S f))) (ONew ck (plain_args vs)) h = (inl tt, h') ∧
    hist h G [ONew ck (plain_args vs)] h' G' ∧ inv h' ∧ core h' G'.
Proof using Hde.
  intros Hs Hvs Hi HG [[cl Hcl] Ha].
  assert (eval_kw (plain_args vs) h = (inl vs, h)) as Ek.
  { clear. unfold plain_args. induction vs as [|[n v] vs IH]; [done|]. cbn [map eval_kw]. by erewrite bind_inl by exact IH. }
  specialize (Ha vs h Ek). set (o := fresh_obj h) in *. pose proof (inv_alloc S h ck Hi) as Hi1. fold o in Hi1.
  destruct (halloc_facts h o ck) as (_ & Hc1 & _ & HV1); [apply Hi|apply fresh_obj_cls|].
  assert (g_cls G o = None) as Hgo by (rewrite <- (proj1 HG); apply fresh_obj_cls).
  assert (∀ k, view h o k = None) as HVo.
  { intros k. destruct (view h o k) eqn:Ev; [|done]. apply view_Some_cls in Ev. unfold o in Ev. rewrite fresh_obj_cls in Ev. by destruct Ev. }
  assert (core (halloc o ck h) (created G o ck)) as HG1.
  { pose proof HG as (H1 & H2 & H3). split; [intros x; cbn [created g_cls]; rewrite Hc1; case_decide; [done|apply H1]|].
    assert (∀ x p, x ≠ o → K (halloc o ck h) x p = K h x p) as HK by (intros x p Hne; unfold pkind; by rewrite Hc1, decide_False).
    split; cbn [created g_one g_many].
    - intros x p y. rewrite H2, HV1. destruct (decide (x = o)) as [->|Hne]; [rewrite HVo; split; by intros [_ ?]|by rewrite HK].
    - intros x p y. rewrite H3, HV1. destruct (decide (x = o)) as [->|Hne]; [rewrite HVo; split; intros (? & ? & _ & ? & _); done|by setoid_rewrite HK]. }
  destruct (ctor_chain f o (mro S ck) (halloc o ck h) _ vs Hs Hvs Hi1 HG1) as (h' & G' & E & Hh & Hi' & HG').
  { rewrite Hc1, decide_True by done. eauto. }
  { exact Ha. }
  exists h', G'. split; [|split; [|done]].
  - cbn [run_op]. erewrite bind_inl by exact Ek. erewrite bind_inl; [done|]. unfold construct. rewrite Hcl. by erewrite bind_inl by exact E.
  - eapply hs_new; [done|exact Hi1|exact HG1|]. by rewrite app_nil_r.
Qed.
End graph.
