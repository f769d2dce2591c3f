(** [addQ] and [removeQ] with any number of arguments. *)
From Coq Require Import String.
From stdpp Require Import prelude gmap.
From Verif Require Import PyStr PyHeap Schema Assoc AssocSpec HeapFacts LinksFacts AssocFacts.

Section facts.
Context (S : schema).
Notation K := (pkind S).

Lemma list_filter_ext {A} (P Q : A → Prop) `{!∀ x, Decision (P x), !∀ x, Decision (Q x)} (l : list A) :
  (∀ x, x ∈ l → P x ↔ Q x) → filter P l = filter Q l.
Proof.
  induction l as [|a l IH]; intros Hl; [done|]. rewrite !filter_cons.
  assert (P a ↔ Q a) as Ha by (apply Hl; left). rewrite IH by (intros; apply Hl; by right).
  repeat case_decide; tauto.
Qed.
Lemma filter_filter_and {A} (P Q : A → Prop) `{!∀ x, Decision (P x), !∀ x, Decision (Q x)} (l : list A) :
  filter P (filter Q l) = filter (λ x, Q x ∧ P x) l.
Proof.
  induction l as [|a l IH]; [done|]. rewrite !filter_cons.
  repeat case_decide; try tauto; rewrite ?filter_cons, ?IH; repeat case_decide; naive_solver.
Qed.

Lemma filter_all {A} (P : A → Prop) `{!∀ x, Decision (P x)} (l : list A) :
  (∀ x, x ∈ l → P x) → filter P l = l.
Proof.
  induction l as [|a l IH]; intros Hl; [done|]. rewrite filter_cons, decide_True by (apply Hl; left).
  f_equal. apply IH. intros. apply Hl. by right.
Qed.

Definition slotful (h : heap) (o : nat) (p : name) : Prop := is_Some (slot h o (Priv p)).

Lemma slot_view h o k s : Wf h → slot h o k = Some s → ∃ z, view h o k = Some z.
Proof.
  intros Hwf Hs. destruct s; try (by eexists; apply view_slot).
  destruct (wf_lists _ Hwf _ _ _ Hs) as [ys ?]. eexists. by eapply view_list.
Qed.

Lemma SetSingle_slotful h h' x p q w o r :
  Consistent S h → K h x p = Some (POneMany q) → slotful h x p →
  (w = VNone ∨ ∃ t ys, w = VRef t ∧ ends_one_many (K h) x p t q ∧ view h t (Priv q) = Some (OL ys)) →
  Wf h → Frame h h' → SetSingle (view h) (view h') x p q w →
  slotful h o r → slotful h' o r.
Proof.
  intros HC Hk [v Hv] Hw Hwf HF HS [s Hs].
  assert (∃ z, view h' o (Priv r) = Some z) as [z Hz].
  { destruct (decide ((o, r) = (x, p))) as [[= -> ->]|Hne]; [rewrite (ss_self _ _ _ _ _ _ HS); eauto|].
    assert (∃ z, view h o (Priv r) = Some z) as [z Hz].
    { destruct s; try (by eexists; apply view_slot).
      destruct (wf_lists _ Hwf _ _ _ Hs) as [ys ?]. eexists. by eapply view_list. }
    destruct (decide (r = q ∧ (w = VRef o ∨ view h x (Priv p) = Some (OV (VRef o))))) as [[-> Hor]|Hno].
    - assert (∃ ys, view h o (Priv q) = Some (OL ys)) as [ys Hys].
      { destruct Hor as [->|Hv'].
        - destruct Hw as [|(t & ys & [= ->] & ? & ?)]; [done|eauto].
        - destruct (lk_single _ _ (proj2 HC) _ _ _ _ Hk Hv') as [|(t & ys & [= ->] & ? & ? & ?)]; [done|eauto]. }
      destruct (decide (w = VRef o)) as [->|].
      + eexists. by apply (ss_new _ _ _ _ _ _ HS).
      + destruct Hor; [done|]. eexists. by apply (ss_old _ _ _ _ _ _ HS).
    - exists z. rewrite <- Hz. apply (ss_frame _ _ _ _ _ _ HS); [congruence|]. intros [= ->]. tauto. }
  unfold slotful. unfold view in Hz. destruct (slot h' o (Priv r)); [eexists; done|done].
Qed.

(** [for x in xs: x.p' = w]. *)
Lemma assign_each f p' p q w xs : ∀ h,
  Consistent S h →
  (∀ x, x ∈ xs → K h x p = Some (POneMany q) ∧ resolves (K h) x p' p ∧ slotful h x p) →
  (w = VNone ∨ ∃ t ys, w = VRef t ∧ (∀ x, x ∈ xs → ends_one_many (K h) x p t q) ∧ view h t (Priv q) = Some (OL ys)) →
  ∃ h', for_each (map VRef xs) (λ x, setattr S (Datatypes.S (Datatypes.S f)) x p' w) h = (inl tt, h') ∧
    Frame h h' ∧ Consistent S h' ∧ AssignAll (view h) (view h') xs p q w ∧
    (∀ o r, slotful h o r → slotful h' o r).
Proof.
  induction xs as [|x xs IH]; intros h HC Hxs Hw.
  { exists h. split_and!; [done|by apply Frame_refl, HC|done| |done]. split.
    - by intros ? ?%elem_of_nil.
    - intros t ys -> Hv. rewrite Hv. simpl. rewrite app_nil_r. do 2 f_equal.
      rewrite filter_all; [done|]. intros ? _. apply not_elem_of_nil.
    - intros u zs _ Hv. rewrite Hv. simpl. do 2 f_equal.
      rewrite filter_all; [done|]. intros ? _. apply not_elem_of_nil.
    - done. }
  destruct (Hxs x) as (Hk & Hr & [v Hv]); [by left|].
  assert (w = VNone ∨ ∃ t ys, w = VRef t ∧ ends_one_many (K h) x p t q ∧ view h t (Priv q) = Some (OL ys)) as Hw1.
  { destruct Hw as [|(t & ys & -> & He & ?)]; [by left|right]. exists t, ys. split_and!; [done|apply He; by left|done]. }
  destruct (setattr_resolves S f h x p' p q w) as [f' E']; [done..|].
  destruct (set_one_many_effect S f' h x p q v w) as (h1 & E1 & HF1 & HS1); [done..|].
  assert (Consistent S h1) as HC1 by (by eapply Consistent_SetSingle).
  assert (∀ o r, slotful h o r → slotful h1 o r) as Hsl.
  { intros o r. eapply SetSingle_slotful; [done|done|by eexists|done|apply HC|done|done]. }
  assert (∀ o r, K h1 o r = K h o r) as HK by (intros; by apply Frame_pkind).
  assert (∀ x' p1 p2, resolves (K h1) x' p1 p2 ↔ resolves (K h) x' p1 p2) as Hres.
  { intros. unfold resolves. setoid_rewrite HK. done. }
  destruct (IH h1) as (h2 & E2 & HF2 & HC2 & HA & Hsl2); [done| | |].
  { intros y Hy. destruct (Hxs y) as (? & ? & ?); [by right|]. rewrite HK, Hres. eauto. }
  { destruct Hw as [|(t & ys & -> & He & Ht)]; [by left|right].
    eexists t, _. split_and!; [done| |by apply (ss_new _ _ _ _ _ _ HS1 t ys)].
    intros y Hy. rewrite (ends_same S h h1) by done. apply He. by right. }
  exists h2. split_and!; [| |done| |].
  { cbn [map for_each]. erewrite bind_inl; [done|]. by rewrite E'. }
  { by eapply Frame_trans. }
  2:{ intros o r ?. by apply Hsl2, Hsl. }
  (* the single end of another listed object is not touched by the first step *)
  assert (∀ y, y ∈ xs → y ≠ x → view h1 y (Priv p) = view h y (Priv p)) as Hkeep.
  { intros y Hy Hne. destruct (Hxs y) as (Hky & _); [by right|].
    destruct (slot_view h x (Priv p) v) as [z Hz]; [apply HC|done|].
    eapply (ss_other (K h) (view h) (view h1) x p q w).
    - apply HC.
    - done.
    - exact Hz.
    - exact Hw1.
    - done.
    - congruence.
    - intros p''. congruence. }
  split.
  - intros y [->|Hy]%elem_of_cons; [|by eapply aa_member].
    destruct (decide (x ∈ xs)); [by eapply aa_member|].
    rewrite (aa_frame _ _ _ _ _ _ HA).
    + apply (ss_self _ _ _ _ _ _ HS1).
    + done.
    + intros [= ->] _ ->. destruct Hw1 as [|(t & ys & [= <-] & (Hq1 & p'' & Hq & _) & _)]; [done|]. congruence.
    + intros [= ->] y Hy Hvy. destruct (Hxs y) as (Hky & _ & _); [by right|].
      assert (view h1 y (Priv q) = Some (OV (VRef x))) as Hvy' by done.
      destruct (lk_single _ _ (proj2 HC1) y q q _ ltac:(by rewrite HK) Hvy') as [|(t & ? & [= <-] & (_ & p'' & Hq & _) & _)]; [done|].
      rewrite HK in Hq. congruence.
  - intros t ys -> Hy. rewrite (aa_new _ _ _ _ _ _ HA t _ eq_refl (ss_new _ _ _ _ _ _ HS1 t ys eq_refl Hy)).
    do 2 f_equal. rewrite filter_app, filter_filter_and, filter_cons, filter_nil. cbn [map remove_dups].
    rewrite <- app_assoc. f_equal.
    + apply list_filter_ext. intros y _. rewrite not_elem_of_cons. done.
    + repeat case_decide; tauto.
  - intros u' zs Hwu Hz.
    assert (view h1 u' (Priv q) = Some (OL (if decide (view h x (Priv p) = Some (OV (VRef u'))) then filter (λ y, y ≠ VRef x) zs else zs))) as Hz1.
    { case_decide as Hd; [by apply (ss_old _ _ _ _ _ _ HS1)|].
      rewrite (ss_frame _ _ _ _ _ _ HS1); [done| |done].
      intros [= -> ->]. pose proof (view_OL _ _ _ _ Hz) as (l & Hl & _).
      destruct (lk_single _ _ (proj2 HC) _ _ _ _ Hk Hz) as [|(? & ? & ? & _)]; done. }
    rewrite (aa_old _ _ _ _ _ _ HA u' _ Hwu Hz1). do 2 f_equal.
    assert (∀ y, y ∉ map VRef (filter (λ x0, view h x0 (Priv p) = Some (OV (VRef u'))) (x :: xs)) ↔
        (view h x (Priv p) = Some (OV (VRef u')) → y ≠ VRef x) ∧
        y ∉ map VRef (filter (λ x0, view h1 x0 (Priv p) = Some (OV (VRef u'))) xs)) as Hiff.
    { intros y. rewrite !elem_of_list_fmap. setoid_rewrite elem_of_list_filter. setoid_rewrite elem_of_cons.
      split.
      - intros Hno. split.
        + intros Hv' ->. apply Hno. eauto.
        + intros (z & -> & Hz' & Hin). destruct (decide (z = x)) as [->|].
          * rewrite (ss_self _ _ _ _ _ _ HS1) in Hz'. naive_solver.
          * apply Hno. exists z. rewrite <- Hkeep by done. eauto.
      - intros [H1 H2] (z & -> & Hz' & [->|Hin]); [by apply H1|].
        destruct (decide (z = x)) as [->|]; [by apply H1|].
        apply H2. exists z. rewrite Hkeep by done. done. }
    case_decide.
    + rewrite filter_filter_and. apply list_filter_ext. intros y _. rewrite Hiff. tauto.
    + apply list_filter_ext. intros y _. rewrite Hiff. tauto.
  - intros o k H1 H2 H3. rewrite (aa_frame _ _ _ _ _ _ HA).
    + apply (ss_frame _ _ _ _ _ _ HS1).
      * intros [= -> ->]. apply H1; [done|left].
      * intros ->. split; [by apply H2|]. apply H3; [done|left].
    + intros ->. specialize (H1 eq_refl). by apply not_elem_of_cons in H1 as [].
    + intros -> _. by apply H2.
    + intros -> y Hy. destruct (decide (y = x)) as [->|].
      * rewrite (ss_self _ _ _ _ _ _ HS1). intros [= ->]. by apply H2.
      * rewrite Hkeep by done. apply H3; [done|by right].
Qed.

(** [t.addQ(xs...)] / [t.removeQ(xs...)] on a one-to-many collection. *)
Lemma add_one_many_effect f h t q p' p xs ys :
  Consistent S h → K h t q = Some (PManyOne p') → view h t (Priv q) = Some (OL ys) →
  (∀ x, x ∈ xs → ends_one_many (K h) x p t q ∧ resolves (K h) x p' p ∧ slotful h x p) →
  ∃ h', add S (Datatypes.S (Datatypes.S f)) (VRef t) q (map VRef xs) h = (inl tt, h') ∧
    Frame h h' ∧ Consistent S h' ∧ AssignAll (view h) (view h') xs p q (VRef t) ∧
    (∀ o r, slotful h o r → slotful h' o r).
Proof.
  intros HC Hk Hv Hxs.
  destruct (assign_each f p' p q (VRef t) xs h) as (h' & E & H'); [done| | |].
  - intros x Hx. destruct (Hxs x Hx) as ([? ?] & ? & ?). done.
  - right. exists t, ys. split_and!; [done| |done]. intros x Hx. by apply Hxs.
  - exists h'. split; [|done]. unfold add. by rewrite obj_prop_pkind, Hk.
Qed.
Lemma remove_one_many_effect f h t q p' p xs :
  Consistent S h → K h t q = Some (PManyOne p') →
  (∀ x, x ∈ xs → K h x p = Some (POneMany q) ∧ resolves (K h) x p' p ∧ slotful h x p) →
  ∃ h', remove S (Datatypes.S (Datatypes.S f)) (VRef t) q (map VRef xs) h = (inl tt, h') ∧
    Frame h h' ∧ Consistent S h' ∧ AssignAll (view h) (view h') xs p q VNone ∧
    (∀ o r, slotful h o r → slotful h' o r).
Proof.
  intros HC Hk Hxs.
  destruct (assign_each f p' p q VNone xs h) as (h' & E & H'); [done|done|by left|].
  exists h'. split; [|done]. unfold remove. by rewrite obj_prop_pkind, Hk.
Qed.
End facts.
