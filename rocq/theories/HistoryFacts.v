(** Admissible client programs run without error and keep references mutually
    consistent. *)
From Coq Require Import String.
From stdpp Require Import prelude gmap.
From Verif Require Import PyStr PyHeap Schema Assoc AssocSpec HeapFacts LinksFacts AssocFacts
  AddRemoveFacts CtorFacts History HistorySpec.

Definition link_kind (k : prop) : bool :=
  match k with POneMany _ | PManyOne _ | POneOne _ | PManyMany _ => true | _ => false end.

Section links.
Context (K : nat → name → option prop).

Lemma Links_other V V' :
  (∀ o r k, K o r = Some k → link_kind k = true → V' o (Priv r) = V o (Priv r)) →
  Links K V → Links K V'.
Proof.
  intros Hs HL. split.
  - intros x p q w Hk Hw. erewrite Hs in Hw by done.
    destruct (lk_single _ _ HL _ _ _ _ Hk Hw) as [->|(t & ys & -> & He & Hvt & Hin)]; [by left|right].
    exists t, ys. split_and!; [done..| |done]. destruct He as (_ & p' & ? & _). by erewrite Hs.
  - intros t q p' w Hk Hw. erewrite Hs in Hw by done.
    destruct (lk_coll _ _ HL _ _ _ _ Hk Hw) as (ys & -> & Hnd & Hm). exists ys. split_and!; [done..|].
    intros e Hin. destruct (Hm e Hin) as (x2 & p2 & -> & He2 & Hvx). exists x2, p2.
    split_and!; [done..|]. destruct He2 as (? & _). by erewrite Hs.
  - intros x p q w Hk Hw. erewrite Hs in Hw by done.
    destruct (lk_one_one _ _ HL _ _ _ _ Hk Hw) as [->|(y2 & -> & [He1 He2] & Hvy)]; [by left|right].
    exists y2. split_and!; [done..|]. by erewrite Hs.
  - intros x p q w Hk Hw. erewrite Hs in Hw by done.
    destruct (lk_many_many _ _ HL _ _ _ _ Hk Hw) as (ys & -> & Hm). exists ys. split; [done|].
    intros e Hin. destruct (Hm e Hin) as (y & xs & -> & [? ?] & ? & ?). exists y, xs.
    split_and!; [done..| |done]. by erewrite Hs.
Qed.
Lemma MMNoDup_other V V' :
  (∀ o r q, K o r = Some (PManyMany q) → V' o (Priv r) = V o (Priv r)) → MMNoDup K V → MMNoDup K V'.
Proof. intros Hs Hnd x p q ys Hk Hv. erewrite Hs in Hv by done. by eapply Hnd. Qed.

(** Initialising a slot nobody refers to. *)
Lemma Links_blank V o p b :
  (V o (Priv p) = None ∨ V o (Priv p) = Some b) →
  (match K o p with
   | Some (POneMany _) | Some (POneOne _) => b = OV VNone
   | Some (PManyOne _) | Some (PManyMany _) => b = OL []
   | _ => True
   end) →
  Links K V → Links K (upd V o (Priv p) b).
Proof.
  intros [Hn|Hn] Hb HL; cycle 1.
  { eapply (Links_ext K K V); [done| |done]. intros o' k'. unfold upd. case_decide as Hd; [|done].
    by destruct Hd as [-> ->]. }
  assert (∀ o' k w, V o' k = Some w → upd V o (Priv p) b o' k = Some w) as Hold.
  { intros o' k w Hv. rewrite upd_ne; [done|]. intros [= -> ->]. congruence. }
  assert (∀ o' p' w, upd V o (Priv p) b o' (Priv p') = Some w →
     (o' = o ∧ p' = p ∧ w = b) ∨ V o' (Priv p') = Some w) as Hinv.
  { intros o' p' w. unfold upd. case_decide as Hd; [|by right]. destruct Hd as [-> [= ->]]. intros [= <-]. by left. }
  split.
  - intros x p2 q w Hk [(-> & -> & ->)|Hw]%Hinv; [rewrite Hk in Hb; by left|].
    destruct (lk_single _ _ HL _ _ _ _ Hk Hw) as [->|(t & ys & -> & ? & ?%Hold & ?)]; [by left|right; eauto 10].
  - intros t q p' w Hk [(-> & -> & ->)|Hw]%Hinv.
    { rewrite Hk in Hb. subst b. exists []. split_and!; [done|constructor|]. by intros ? ?%elem_of_nil. }
    destruct (lk_coll _ _ HL _ _ _ _ Hk Hw) as (ys & -> & ? & Hm). exists ys. split_and!; [done..|].
    intros y Hy. destruct (Hm y Hy) as (x & p2 & -> & ? & ?%Hold). eauto 10.
  - intros x p2 q w Hk [(-> & -> & ->)|Hw]%Hinv; [rewrite Hk in Hb; by left|].
    destruct (lk_one_one _ _ HL _ _ _ _ Hk Hw) as [->|(y & -> & ? & ?%Hold)]; [by left|right; eauto 10].
  - intros x p2 q w Hk [(-> & -> & ->)|Hw]%Hinv.
    { rewrite Hk in Hb. subst b. exists []. split_and!; [done|]. by intros ? ?%elem_of_nil. }
    destruct (lk_many_many _ _ HL _ _ _ _ Hk Hw) as (ys & -> & Hm). exists ys. split; [done|].
    intros e Hin. destruct (Hm e Hin) as (y & xs & -> & ? & ?%Hold & ?). eauto 10.
Qed.
Lemma MMNoDup_blank V o p b :
  (match K o p with Some (PManyMany _) => b = OL [] | _ => True end) →
  MMNoDup K V → MMNoDup K (upd V o (Priv p) b).
Proof.
  intros Hb Hnd x p2 q ys Hk. unfold upd. case_decide as Hd; [|by eapply Hnd].
  destruct Hd as [-> [= ->]]. rewrite Hk in Hb. subst b. intros [= <-]. constructor.
Qed.

(** A new object. *)
Lemma Links_alloc K' V o :
  (∀ o' r, o' ≠ o → K' o' r = K o' r) → (∀ k, V o k = None) → Links K V → Links K' V.
Proof.
  intros HK HV HL.
  assert (∀ o' k w, V o' k = Some w → o' ≠ o) as Hne.
  { intros o' k w Hv ->. by rewrite HV in Hv. }
  assert (∀ x p t q k w k2 w2, V x k = Some w → V t k2 = Some w2 →
     ends_one_many K x p t q → ends_one_many K' x p t q) as He.
  { intros x p t q k w k2 w2 Hx%Hne Ht%Hne (E1 & p' & E2 & E3). split; [by rewrite HK|].
    exists p'. rewrite HK by done. split; [done|].
    destruct E3 as [[-> ?]|[c ?]]; [left|right]; setoid_rewrite HK; eauto. }
  split.
  - intros x p q w Hk Hw. rewrite HK in Hk by eauto.
    destruct (lk_single _ _ HL _ _ _ _ Hk Hw) as [->|(t & ys & -> & ? & ? & ?)]; [by left|right; eauto 10].
  - intros t q p' w Hk Hw. rewrite HK in Hk by eauto.
    destruct (lk_coll _ _ HL _ _ _ _ Hk Hw) as (ys & -> & ? & Hm). exists ys. split_and!; [done..|].
    intros y Hy. destruct (Hm y Hy) as (x & p & -> & ? & ?). eauto 10.
  - intros x p q w Hk Hw. rewrite HK in Hk by eauto.
    destruct (lk_one_one _ _ HL _ _ _ _ Hk Hw) as [->|(y & -> & [? ?] & ?)]; [by left|right].
    exists y. split_and!; [done| |done]. split; rewrite HK; eauto.
  - intros x p q w Hk Hw. rewrite HK in Hk by eauto.
    destruct (lk_many_many _ _ HL _ _ _ _ Hk Hw) as (ys & -> & Hm). exists ys. split; [done|].
    intros e Hin. destruct (Hm e Hin) as (y & xs & -> & [? ?] & ? & ?). exists y, xs.
    split_and!; [done| |done..]. split; rewrite HK; eauto.
Qed.

(** Filling an empty many-to-many collection. *)
Lemma Links_fill V V' t q p ys :
  Links K V → MMNoDup K V → p ≠ q → K t q = Some (PManyMany p) → V t (Priv q) = Some (OL []) → NoDup ys →
  (∀ y, y ∈ ys → K y p = Some (PManyMany q) ∧ ∃ xs, V y (Priv p) = Some (OL xs) ∧ V' y (Priv p) = Some (OL (xs ++ [VRef t]))) →
  V' t (Priv q) = Some (OL (map VRef ys)) →
  (∀ o k, (o, k) ≠ (t, Priv q) → (k = Priv p → o ∉ ys) → V' o k = V o k) →
  Links K V' ∧ MMNoDup K V'.
Proof.
  intros HL Hnd Hpq Hk Ht Hys Hy Ht' Hfr.
  assert (∀ o r, (∀ q2, K o r ≠ Some (PManyMany q2)) → V' o (Priv r) = V o (Priv r)) as Hoth.
  { intros o r Hno. apply Hfr; [intros [= -> ->]; naive_solver|]. intros [= ->] Hin.
    destruct (Hy o Hin) as [? _]. naive_solver. }
  assert (∀ x2 p2 w2 q2, K x2 p2 = Some (PManyMany q2) → V' x2 (Priv p2) = Some w2 →
    (x2 = t ∧ p2 = q ∧ w2 = OL (map VRef ys)) ∨
    (x2 ∈ ys ∧ p2 = p ∧ q2 = q ∧ ∃ xs, V x2 (Priv p2) = Some (OL xs) ∧ w2 = OL (xs ++ [VRef t])) ∨
    ((x2, p2) ≠ (t, q) ∧ V x2 (Priv p2) = Some w2)) as Hinv.
  { intros x2 p2 w2 q2 Hk2 Hw2. destruct (decide ((x2, p2) = (t, q))) as [[= -> ->]|Hn]; [left; naive_solver|].
    destruct (decide (x2 ∈ ys ∧ p2 = p)) as [[Hin ->]|Hn2].
    - right; left. destruct (Hy x2 Hin) as (? & xs & ? & ?). split_and!; [done|done|congruence|]. exists xs.
      split; [done|congruence].
    - right; right. split; [done|]. rewrite <- Hw2. symmetry. apply Hfr; [congruence|]. intros [= ->] ?. naive_solver. }
  assert (∀ o k xs e, V o k = Some (OL xs) → e ∈ xs → ∃ xs', V' o k = Some (OL xs') ∧ e ∈ xs') as Hmono.
  { intros o k xs e Hv Hin. destruct (decide ((o, k) = (t, Priv q))) as [[= -> ->]|Hn].
    { rewrite Ht in Hv. simplify_eq. by apply elem_of_nil in Hin. }
    destruct (decide (k = Priv p ∧ o ∈ ys)) as [[-> Ho]|Hn2].
    - destruct (Hy o Ho) as (_ & xs' & ? & ?). simplify_eq. eexists. split; [done|]. apply elem_of_app. by left.
    - exists xs. rewrite Hfr; [done|done|]. naive_solver. }
  split; cycle 1.
  { intros x2 p2 q2 l Hk2 Hw2. destruct (Hinv _ _ _ _ Hk2 Hw2) as [(-> & -> & [= ->])|[(Hin & -> & -> & xs & Hv & [= ->])|[_ Hv]]].
    - apply NoDup_fmap; [by intros ?? [= ->]|done].
    - apply NoDup_app. split_and!; [by eapply (Hnd x2)| |by apply NoDup_singleton].
      intros e He ->%elem_of_list_singleton.
      destruct (lk_many_many _ _ HL _ _ _ _ Hk2 Hv) as (? & [= <-] & Hm).
      destruct (Hm _ He) as (y & zs & [= <-] & _ & Hz & Hinz). rewrite Ht in Hz. simplify_eq. by apply elem_of_nil in Hinz.
    - by eapply (Hnd x2). }
  assert (Links K V) as [L1 L2 L3 L4] by done. split.
  - intros x2 p2 q2 w2 Hk2 Hw2. rewrite Hoth in Hw2 by congruence.
    destruct (L1 _ _ _ _ Hk2 Hw2) as [->|(t2 & l & -> & He2 & Hvt & Hin)]; [by left|right].
    exists t2, l. split_and!; [done..| |done]. destruct He2 as (_ & p' & ? & _). rewrite Hoth; [done|congruence].
  - intros t2 q2 p' w2 Hkt Hw2. rewrite Hoth in Hw2 by congruence.
    destruct (L2 _ _ _ _ Hkt Hw2) as (l & -> & Hnd2 & Hm). exists l. split_and!; [done..|].
    intros e Hin. destruct (Hm e Hin) as (x2 & p2 & -> & He2 & Hvx). exists x2, p2.
    split_and!; [done..|]. destruct He2 as (? & _). rewrite Hoth; [done|congruence].
  - intros x2 p2 q2 w2 Hk2 Hw2. rewrite Hoth in Hw2 by congruence.
    destruct (L3 _ _ _ _ Hk2 Hw2) as [->|(y2 & -> & [He1 He2] & Hvy)]; [by left|right].
    exists y2. split_and!; [done..|]. rewrite Hoth; [done|congruence].
  - intros x2 p2 q2 w2 Hk2 Hw2.
    assert (∀ xs, V x2 (Priv p2) = Some (OL xs) → ∀ e, e ∈ xs → ∃ y2 zs, e = VRef y2 ∧ ends_many_many K x2 p2 y2 q2 ∧
       V' y2 (Priv q2) = Some (OL zs) ∧ VRef x2 ∈ zs) as Hold.
    { intros xs Hv e Hin. destruct (L4 _ _ _ _ Hk2 Hv) as (? & [= <-] & Hm).
      destruct (Hm _ Hin) as (y2 & zs & -> & ? & Hz & Hzin).
      destruct (Hmono _ _ _ _ Hz Hzin) as (zs' & ? & ?). eauto 10. }
    destruct (Hinv _ _ _ _ Hk2 Hw2) as [(-> & -> & ->)|[(Hin & -> & -> & xs & Hv & ->)|[_ Hv]]].
    + eexists. split; [done|]. intros e (y & -> & Hin)%elem_of_list_fmap.
      destruct (Hy y Hin) as (? & xs & ? & ?). assert (q2 = p) as -> by congruence.
      exists y. eexists. split_and!; [done|by split|done|]. apply elem_of_app. right. by apply elem_of_list_singleton.
    + eexists. split; [done|]. intros e [?| ->%elem_of_list_singleton]%elem_of_app; [by eapply Hold|].
      exists t. eexists. split_and!; [done|by split|done|]. apply elem_of_list_fmap. eauto.
    + destruct (L4 _ _ _ _ Hk2 Hv) as (xs & -> & _). exists xs. split; [done|]. by apply Hold.
Qed.
End links.

Section facts.
Context (S : schema) (Hde : distinct_ends S).
Notation K := (pkind S).

(** The invariant. *)
Definition inv (h : heap) : Prop := Consistent S h ∧ MMNoDup (K h) (view h).
Definition keeps_inv (h h' : heap) : Prop := same_classes h h' ∧ inv h'.

Lemma pkind_ends h o p : K h o p ≠ Some (POneOne p) ∧ K h o p ≠ Some (PManyMany p).
Proof using Hde. unfold pkind. destruct (cls_of h o); simpl; [apply Hde|done]. Qed.

Lemma not_list_vlist v : not_list v → is_vlist v = false.
Proof. intros Hn. destruct v; try done. by destruct (Hn l). Qed.

(** Heap updates that touch no reference. *)
Lemma inv_ext h h' :
  inv h → Wf h' → same_classes h h' →
  (∀ o r k, K h o r = Some k → link_kind k = true → view h' o (Priv r) = view h o (Priv r)) → inv h'.
Proof.
  intros [[Hwf HL] Hnd] Hwf' Hsc Hv.
  assert (∀ o r, K h' o r = K h o r) as HK by (intros; by apply pkind_same).
  split; [split; [done|]|].
  - eapply (Links_ext (K h) (K h') (view h')); [done|done|]. by eapply Links_other.
  - eapply MMNoDup_other; [|intros x p q ys; rewrite HK; apply Hnd].
    intros o r q. rewrite HK. intros. by eapply Hv.
Qed.
Lemma inv_write h o k v :
  inv h → is_Some (cls_of h o) → is_vlist v = false →
  (∀ p c, k = Priv p → K h o p = Some c → link_kind c = false) → inv (hset o k v h).
Proof.
  intros Hi Hc Hv Hk. eapply inv_ext; [done|apply wf_hset; [apply Hi|done..]|apply same_classes_hset|].
  intros o' r c Hkc Hlk. rewrite view_hset by done. rewrite upd_ne; [done|]. intros [= -> <-].
  rewrite (Hk r c) in Hlk; done.
Qed.
Lemma inv_write_list h o k l xs :
  inv h → is_Some (cls_of h o) → h_lists h !! l = Some xs → loose h l →
  (∀ p c, k = Priv p → K h o p = Some c → link_kind c = false) → inv (hset o k (VList l) h).
Proof.
  intros Hi Hc Hl Hlo Hk. eapply inv_ext; [done|eapply wf_hset_list; [apply Hi|done..]|apply same_classes_hset|].
  intros o' r c Hkc Hlk. erewrite view_hset_list by done. rewrite upd_ne; [done|]. intros [= -> <-].
  rewrite (Hk r c) in Hlk; done.
Qed.
Lemma inv_new_list h xs : inv h → inv (lset (fresh_list h) xs h).
Proof.
  intros Hi. destruct (new_list_Frame h xs) as (HF & _ & HV); [apply Hi|].
  eapply inv_ext; [done|by eapply Frame_wf|apply HF|]. intros. apply HV.
Qed.

Lemma frame_keeps h h' : Frame h h' → inv h' → keeps_inv h h'.
Proof. intros (_ & ? & _) ?. by split. Qed.

Lemma slotful_view h x p : Wf h → has_slot h x p → ∃ w, view h x (Priv p) = Some w.
Proof. intros ? [s ?]. by eapply slot_view. Qed.

Lemma set_single_inv f h x p q v :
  inv h → K h x p = Some (POneMany q) → has_slot h x p → fits_one_many S h x p q v →
  ∃ h', setattr S (Datatypes.S f) (VRef x) p v h = (inl tt, h') ∧ keeps_inv h h'.
Proof.
  intros [HC Hnd] Hk Hs Hv. pose proof Hs as [s Hs'].
  destruct (set_one_many_effect S f h x p q s v) as (h' & E & HF & HS); [done..|].
  exists h'. split; [done|]. apply frame_keeps; [done|]. split; [by eapply Consistent_SetSingle|].
  destruct (slotful_view h x p) as [w Hw]; [apply HC|done|].
  assert (∀ o r, K h' o r = K h o r) as HK by (intros; by apply Frame_pkind).
  eapply MMNoDup_other; [|intros ????; rewrite HK; apply Hnd].
  intros o r q2. rewrite HK. intros Hkr.
  eapply (ss_other (K h) (view h) (view h') x p q v); [apply HC|done|exact Hw|exact Hv|done| |congruence].
  intros [= -> ->]. congruence.
Qed.

Lemma adm_set_inv f h x p v :
  inv h → adm_set S h x p v →
  ∃ h', setattr S (Datatypes.S (Datatypes.S f)) (VRef x) p v h = (inl tt, h') ∧ keeps_inv h h'.
Proof using Hde.
  intros Hi Hadm. unfold adm_set in Hadm. destruct (K h x p) as [[q|q|q|q| |q|p2 c]|] eqn:Hk; try done.
  - destruct Hadm. by eapply set_single_inv.
  - destruct Hadm as [Hs Hv]. pose proof Hi as [HC Hnd]. pose proof Hs as [s Hs'].
    assert (p ≠ q) as Hpq by (intros ->; by destruct (pkind_ends h x q)).
    assert (v = VNone ∨ ∃ y c, v = VRef y ∧ ends_one_one (K h) x p y q ∧ slot h y (Priv q) = Some c) as Hv'.
    { destruct Hv as [|(y & -> & ? & [c ?])]; [by left|right; eauto 10]. }
    destruct (set_one_one_effect S f h x p q s v) as (h' & E & HF & HS); [done..|].
    exists h'. split; [done|]. apply frame_keeps; [done|]. split; [by eapply Consistent_SetPair|].
    assert (∀ o r, K h' o r = K h o r) as HK by (intros; by apply Frame_pkind).
    eapply MMNoDup_other; [|intros ????; rewrite HK; apply Hnd].
    intros o r q2. rewrite HK. intros Hkr.
    destruct (slotful_view h x p) as [w Hw]; [apply HC|done|].
    eapply (sp_other (K h) (view h) (view h') x p q v w); [apply HC|done|done|exact Hw| |done|congruence].
    destruct Hv as [|(y & -> & ? & Hsy)]; [by left|right].
    destruct (slotful_view h y q) as [wy Hwy]; [apply HC|done|]. eauto.
  - assert (is_Some (cls_of h x)) as Hc. { unfold pkind in Hk. destruct (cls_of h x); [eauto|done]. }
    exists (hset x (Priv p) v h). split.
    + cbn [setattr]. rewrite obj_prop_pkind, Hk. by apply write_key_ok.
    + split; [apply same_classes_hset|]. apply inv_write; [done|done|by apply not_list_vlist|].
      intros p0 c [= <-]. rewrite Hk. by intros [= <-].
  - destruct Hadm as (Hs & q & Hk2 & Hv).
    destruct (setattr_resolves S f h x p p2 q v) as [f' ->]; [|done|by eapply set_single_inv].
    right. eauto.
  - destruct Hadm as (Hc & Hp & Hv). rewrite set_plain by done.
    eexists. split; [done|]. split; [apply same_classes_hset|]. rewrite Hp.
    apply inv_write; [done|done|by apply not_list_vlist|done].
Qed.

(** [for r in rs: if self not in r._q: r._q.append(self)] *)
Lemma append_each t p ys : ∀ h,
  Wf h → NoDup ys → (∀ y, y ∈ ys → ∃ xs, view h y (Priv p) = Some (OL xs) ∧ VRef t ∉ xs) →
  ∃ h', for_each (map VRef ys) (λ r,
             let* lst := read_key r (Priv p) in
             let* b := contains (VRef t) lst in
             if b : bool then ret tt else append lst (VRef t)) h = (inl tt, h') ∧ Frame h h' ∧
    (∀ y xs, y ∈ ys → view h y (Priv p) = Some (OL xs) → view h' y (Priv p) = Some (OL (xs ++ [VRef t]))) ∧
    (∀ o k, (k = Priv p → o ∉ ys) → view h' o k = view h o k).
Proof.
  induction ys as [|y ys IH]; intros h Hwf Hnd Hys.
  { exists h. split_and!; [done|by apply Frame_refl| |done]. by intros ?? ?%elem_of_nil. }
  apply NoDup_cons in Hnd as [Hny Hnd].
  destruct (Hys y) as (xs & Hv & Ht); [left|].
  destruct (view_OL _ _ _ _ Hv) as (l & Hs & Hl).
  assert (∀ o k, view (lset l (xs ++ [VRef t]) h) o k = upd (view h) y (Priv p) (OL (xs ++ [VRef t])) o k) as HV1.
  { intros. by eapply view_lset. }
  destruct (IH (lset l (xs ++ [VRef t]) h)) as (h' & E & HF & Hm & Hfr).
  { by apply wf_lset. }
  { done. }
  { intros z Hz. rewrite HV1, upd_ne by congruence. apply Hys. by right. }
  exists h'. split_and!.
  - cbn [map for_each]. erewrite bind_inl; [done|].
    erewrite bind_inl; [|by apply read_key_ok].
    erewrite (bind_inl (contains _ _)); [|unfold contains; by rewrite Hl]. cbv beta.
    rewrite bool_decide_eq_false_2 by done. unfold append. by rewrite Hl.
  - eapply Frame_trans; [by eapply Frame_lset|done].
  - intros z zs [->|Hz]%elem_of_cons Hvz.
    + rewrite Hv in Hvz. simplify_eq. rewrite Hfr by done. by rewrite HV1, upd_eq.
    + apply Hm; [done|]. rewrite HV1, upd_ne by congruence. done.
  - intros o k Hn. rewrite Hfr, HV1, upd_ne; [done| |].
    + intros [= -> ->]. apply Hn; [done|left].
    + intros ->. specialize (Hn eq_refl). by apply not_elem_of_cons in Hn as [].
Qed.

Lemma set_list_inv f h t q l ys :
  inv h → h_lists h !! l = Some (map VRef ys) → loose h l → adm_set_list S h t q ys →
  ∃ h', setattr S (Datatypes.S (Datatypes.S (Datatypes.S f))) (VRef t) q (VList l) h = (inl tt, h') ∧ keeps_inv h h'.
Proof using Hde.
  intros Hi Hl Hlo Hadm. pose proof Hi as [HC Hnd]. unfold adm_set_list in Hadm.
  destruct (K h t q) as [[p|p|p|p| |p|p2 c]|] eqn:Hk; try done.
  - destruct Hadm as ([s Hs] & Hys & Hm).
    destruct (set_many_one_effect S f h t q p s l ys) as (h' & E & (Hwf' & Hsc & _) & HS); [done..| |].
    { intros. by apply Hm. }
    destruct (slotful_view h t q) as [w Hw]; [apply HC|by eexists|].
    destruct (lk_coll _ _ (proj2 HC) _ _ _ _ Hk Hw) as (xs & -> & _).
    assert (∀ o r, K h' o r = K h o r) as HK by (intros; by apply pkind_same).
    exists h'. split; [done|]. split; [done|]. split; [split; [done|]|].
    + eapply (Links_ext (K h) (K h') (view h')); [done|done|].
      eapply (Links_SetColl (K h) (view h) (view h') t q p xs ys); [apply HC|done..].
    + eapply MMNoDup_other; [|intros ????; rewrite HK; apply Hnd].
      intros o r q2. rewrite HK. intros Hkr.
      eapply (sc_other (K h) (view h) (view h') t q p xs ys); [apply HC|done..| |congruence].
      intros [= -> ->]. congruence.
  - destruct Hadm as (Hv & Hys & Hm).
    assert (p ≠ q) as Hpq by (intros ->; by destruct (pkind_ends h t q)).
    destruct (view_OL _ _ _ _ Hv) as (l0 & Hs0 & Hl0).
    destruct (append_each t p ys h) as (h1 & E1 & HF1 & Hm1 & Hfr1); [apply HC|done| |].
    { intros y Hy. destruct (Hm y Hy) as ((_ & Hky) & xs & Hx). exists xs. split; [done|]. intros Hin.
      destruct (lk_many_many _ _ (proj2 HC) _ _ _ _ Hky Hx) as (? & [= <-] & Hmm).
      destruct (Hmm _ Hin) as (? & zs & [= <-] & _ & Hz & Hinz). rewrite Hv in Hz. simplify_eq.
      by apply elem_of_nil in Hinz. }
    pose proof (Frame_wf _ _ HF1) as Hwf1.
    assert (h_lists h1 !! l = Some (map VRef ys) ∧ loose h1 l) as [Hl1 Hlo1].
    { destruct HF1 as (_ & _ & HKp). by apply HKp. }
    assert (is_Some (cls_of h t)) as Hct by (by eapply slot_cls).
    assert (is_Some (cls_of h1 t)) as Hct1 by (by rewrite (Frame_cls h)).
    assert (∀ o k, view (hset t (Priv q) (VList l) h1) o k = upd (view h1) t (Priv q) (OL (map VRef ys)) o k) as HV2.
    { intros. by erewrite view_hset_list. }
    exists (hset t (Priv q) (VList l) h1).
    assert (same_classes h (hset t (Priv q) (VList l) h1)) as Hsc.
    { eapply same_classes_trans; [apply HF1|apply same_classes_hset]. }
    assert (∀ o r, K (hset t (Priv q) (VList l) h1) o r = K h o r) as HK by (intros; by apply pkind_same).
    split.
    + remember (Datatypes.S (Datatypes.S f)) as f2. cbn [setattr]. rewrite obj_prop_pkind, Hk.
      erewrite bind_inl; [|by apply read_key_ok].
      erewrite (bind_inl (iter_val (VList l0))); [|unfold iter_val; by rewrite Hl0].
      erewrite bind_inl; [|done].
      erewrite bind_inl; [|rewrite (live_append_same _ _ _ _ _ Hlo Hl); exact E1]. by rewrite write_key_ok.
    + split; [done|].
      destruct (Links_fill (K h) (view h) (view (hset t (Priv q) (VList l) h1)) t q p ys) as [HL2 Hnd2];
        [apply HC|done..| | | |].
      * intros y Hy. destruct (Hm y Hy) as ((_ & Hky) & xs & Hx). split; [done|]. exists xs. split; [done|].
        rewrite HV2, upd_ne by congruence. by apply Hm1.
      * by rewrite HV2, upd_eq.
      * intros o k Hn1 Hn2. rewrite HV2, upd_ne by done. by apply Hfr1.
      * split; [split|].
        -- by eapply wf_hset_list.
        -- eapply (Links_ext (K h) _ (view (hset t (Priv q) (VList l) h1))); [done|done|done].
        -- intros x p0 q0 zs. rewrite HK. apply Hnd2.
  - destruct Hadm as [Hc Hp]. rewrite set_plain by done. eexists. split; [done|].
    split; [apply same_classes_hset|]. rewrite Hp. by eapply inv_write_list.
Qed.

Lemma adm_set_list_inv f h t q ys :
  inv h → adm_set_list S h t q ys →
  ∃ h', (let* l := new_list (map VRef ys) in setattr S (Datatypes.S (Datatypes.S (Datatypes.S f))) (VRef t) q l) h = (inl tt, h')
    ∧ keeps_inv h h'.
Proof using Hde.
  intros Hi Hadm.
  destruct (new_list_Frame h (map VRef ys)) as (HF & Hlo & HV); [apply Hi|].
  destruct (set_list_inv f (lset (fresh_list h) (map VRef ys) h) t q (fresh_list h) ys) as (h' & E & Hsc & Hi').
  - by apply inv_new_list.
  - by rewrite lists_lset.
  - done.
  - unfold adm_set_list, ends_many_many, has_slot in *.
    assert (∀ o r, K (lset (fresh_list h) (map VRef ys) h) o r = K h o r) as HK by (intros; by apply Frame_pkind).
    rewrite HK. destruct (K h t q) as [[]|]; try done; setoid_rewrite HK; setoid_rewrite HV; done.
  - exists h'. split; [by erewrite bind_inl|]. split; [|done]. eapply same_classes_trans; [apply HF|done].
Qed.

(** add* and remove* *)
Lemma AssignAll_mm h h' xs p q w :
  Consistent S h → Frame h h' → AssignAll (view h) (view h') xs p q w →
  (∀ x, x ∈ xs → K h x p = Some (POneMany q)) →
  (w = VNone ∨ ∃ t p', w = VRef t ∧ K h t q = Some (PManyOne p')) →
  MMNoDup (K h) (view h) → MMNoDup (K h') (view h').
Proof.
  intros HC HF HA Hxs Hw Hnd.
  assert (∀ o r, K h' o r = K h o r) as HK by (intros; by apply Frame_pkind).
  eapply MMNoDup_other; [|intros ????; rewrite HK; apply Hnd].
  intros o r q2. rewrite HK. intros Hkr. apply (aa_frame _ _ _ _ _ _ HA).
  - intros [= ->] Hin. rewrite (Hxs _ Hin) in Hkr. done.
  - intros [= ->] _ ->. destruct Hw as [|(t & p' & [= <-] & ?)]; congruence.
  - intros [= ->] x Hx Hv. destruct (lk_single _ _ (proj2 HC) _ _ _ _ (Hxs _ Hx) Hv)
      as [|(? & ? & [= <-] & (_ & ? & ? & _) & _)]; congruence.
Qed.

Lemma add_many_inv f t q p ys : ∀ h ps,
  inv h → K h t q = Some (PManyMany p) → view h t (Priv q) = Some (OL ps) → NoDup ys →
  (∀ y, y ∈ ys → ends_many_many (K h) t q y p ∧ VRef y ∉ ps ∧ ∃ xs, view h y (Priv p) = Some (OL xs)) →
  ∃ h', add S f (VRef t) q (map VRef ys) h = (inl tt, h') ∧ keeps_inv h h'.
Proof using Hde.
  induction ys as [|y ys IH]; intros h ps Hi Hk Hv Hnd Hys.
  { exists h. unfold add. rewrite obj_prop_pkind, Hk. split; [done|]. by split. }
  apply NoDup_cons in Hnd as [Hny Hnd].
  assert (q ≠ p) as Hpq by (intros ->; by destruct (pkind_ends h t p)).
  destruct (Hys y) as (He & Hni & xs & Hx); [left|].
  destruct (add_many_many_exec S f h t q p y ps xs) as (h1 & E1 & HF1 & HA); [apply Hi|done..|].
  assert (∀ o r, K h1 o r = K h o r) as HK by (intros; by apply Frame_pkind).
  destruct (IH h1 (ps ++ [VRef y])) as (h' & E' & Hsc & Hi').
  - split; [split; [by eapply Frame_wf|]|].
    + eapply (Links_ext (K h) (K h1) (view h1)); [done|done|].
      eapply (Links_AddMany (K h) (view h) (view h1) t q y p); [apply Hi|done..].
    + assert (MMNoDup (K h) (view h1)) as Hmm.
      { eapply (MMNoDup_AddMany (K h) (view h) (view h1) t q y p); [apply Hi|done|done|apply Hi|done..]. }
      intros ????. rewrite HK. apply Hmm.
  - by rewrite HK.
  - by apply (am_self _ _ _ _ _ _ HA).
  - done.
  - intros z Hz. destruct (Hys z) as (Hez & Hnz & zs & Hvz); [by right|]. split; [|split].
    + unfold ends_many_many. by rewrite !HK.
    + rewrite elem_of_app, elem_of_list_singleton. intros [?|[= ->]]; done.
    + rewrite (am_frame _ _ _ _ _ _ HA); [eauto|congruence|congruence].
  - exists h'. split; [|split; [eapply same_classes_trans; [apply HF1|done]|done]].
    revert E1 E'. unfold add. rewrite !obj_prop_pkind, HK, Hk. cbn [map for_each].
    intros E1 E'. destruct (bind_inv _ _ _ _ _ E1) as ([] & h2 & Ea & Eb).
    erewrite bind_inl; [|exact Ea]. injection Eb as <-. exact E'.
Qed.

Lemma remove_many_inv f t q p ys : ∀ h ps,
  inv h → K h t q = Some (PManyMany p) → view h t (Priv q) = Some (OL ps) → NoDup ys →
  (∀ y, y ∈ ys → VRef y ∈ ps) →
  ∃ h', remove S f (VRef t) q (map VRef ys) h = (inl tt, h') ∧ keeps_inv h h'.
Proof using Hde.
  induction ys as [|y ys IH]; intros h ps Hi Hk Hv Hnd Hys.
  { exists h. unfold remove. rewrite obj_prop_pkind, Hk. split; [done|]. by split. }
  apply NoDup_cons in Hnd as [Hny Hnd].
  assert (q ≠ p) as Hpq by (intros ->; by destruct (pkind_ends h t p)).
  assert (VRef y ∈ ps) as Hy by (apply Hys; left).
  destruct (lk_many_many _ _ (proj2 (proj1 Hi)) _ _ _ _ Hk Hv) as (? & [= <-] & Hm).
  destruct (Hm _ Hy) as (? & xs & [= <-] & He & Hx & Hin).
  destruct (remove_many_many_exec S f h t q p y ps xs) as (h1 & E1 & HF1 & HA); [apply Hi|done..|].
  assert (∀ o r, K h1 o r = K h o r) as HK by (intros; by apply Frame_pkind).
  destruct (Links_RemoveMany (K h) (view h) (view h1) t q y p) as [HL1 Hmm]; [apply Hi|done|done|apply Hi|done|].
  destruct (rm_self _ _ _ _ _ _ HA) as (a & b & Hab & Hna & Hab').
  rewrite Hv in Hab. injection Hab as ->.
  destruct (IH h1 (a ++ b)) as (h' & E' & Hsc & Hi').
  - split; [split; [by eapply Frame_wf|]|].
    + eapply (Links_ext (K h) (K h1) (view h1)); done.
    + intros ????. rewrite HK. apply Hmm.
  - by rewrite HK.
  - done.
  - done.
  - intros z Hz. assert (VRef z ∈ a ++ VRef y :: b) as Hzin by (apply Hys; by right).
    rewrite <- Permutation_middle in Hzin. apply elem_of_cons in Hzin as [[= ->]|]; done.
  - exists h'. split; [|split; [eapply same_classes_trans; [apply HF1|done]|done]].
    revert E1 E'. unfold remove. rewrite !obj_prop_pkind, HK, Hk. cbn [map for_each].
    intros E1 E'. destruct (bind_inv _ _ _ _ _ E1) as ([] & h2 & Ea & Eb).
    erewrite bind_inl; [|exact Ea]. injection Eb as <-. exact E'.
Qed.

Lemma adm_add_inv f h t q ys :
  inv h → adm_add S h t q ys →
  ∃ h', add S (Datatypes.S (Datatypes.S f)) (VRef t) q (map VRef ys) h = (inl tt, h') ∧ keeps_inv h h'.
Proof using Hde.
  intros Hi Hadm. unfold adm_add in Hadm. destruct (K h t q) as [[]|] eqn:Hk; try done.
  - destruct Hadm as ([xs Hv] & p & Hys).
    destruct (add_one_many_effect S f h t q q0 p ys xs) as (h' & E & HF & HC' & HA & _); [apply Hi|done..|].
    exists h'. split; [done|]. apply frame_keeps; [done|]. split; [done|].
    eapply (AssignAll_mm h h' ys p q (VRef t)); [apply Hi|done|done| | |apply Hi].
    + intros x Hx. by apply Hys.
    + right. eauto.
  - destruct Hadm as (ps & Hv & Hnd & Hys). by eapply add_many_inv.
Qed.
Lemma adm_remove_inv f h t q ys :
  inv h → adm_remove S h t q ys →
  ∃ h', remove S (Datatypes.S (Datatypes.S f)) (VRef t) q (map VRef ys) h = (inl tt, h') ∧ keeps_inv h h'.
Proof using Hde.
  intros Hi Hadm. unfold adm_remove in Hadm. destruct (K h t q) as [[]|] eqn:Hk; try done.
  - destruct Hadm as (p & Hys).
    destruct (remove_one_many_effect S f h t q q0 p ys) as (h' & E & HF & HC' & HA & _); [apply Hi|done..|].
    exists h'. split; [done|]. apply frame_keeps; [done|]. split; [done|].
    eapply (AssignAll_mm h h' ys p q VNone); [apply Hi|done|done| | |apply Hi].
    + intros x Hx. by apply Hys.
    + by left.
  - destruct Hadm as (ps & Hv & Hnd & Hys). by eapply remove_many_inv.
Qed.

(** Constructor statements. *)
Lemma inv_blank h o p v b :
  inv h → is_Some (cls_of h o) → is_vlist v = false → OV v = b →
  blank_slot h o p b →
  (match K h o p with
   | Some (POneMany _) | Some (POneOne _) => b = OV VNone
   | Some (PManyOne _) | Some (PManyMany _) => b = OL []
   | _ => True end) →
  inv (hset o (Priv p) v h).
Proof.
  intros [[Hwf HL] Hnd] Hc Hv <- Hb Hk.
  assert (∀ o' r, K (hset o (Priv p) v h) o' r = K h o' r) as HK by (intros; apply pkind_hset).
  assert (∀ o' k, view (hset o (Priv p) v h) o' k = upd (view h) o (Priv p) (OV v) o' k) as HV.
  { intros. by apply view_hset. }
  split; [split; [by apply wf_hset|]|].
  - eapply (Links_ext (K h) _ (upd (view h) o (Priv p) (OV v))); [done|done|]. by apply Links_blank.
  - intros x p0 q ys. rewrite HK, HV. eapply MMNoDup_blank; [|done]. by destruct (K h o p) as [[]|].
Qed.
Lemma inv_blank_list h o p :
  inv h → is_Some (cls_of h o) → blank_slot h o p (OL []) →
  (match K h o p with Some (POneMany _) | Some (POneOne _) => False | _ => True end) →
  inv (hnew o (Priv p) [] h).
Proof.
  intros [[Hwf HL] Hnd] Hc Hb Hk.
  assert (∀ o' r, K (hnew o (Priv p) [] h) o' r = K h o' r) as HK.
  { intros. unfold hnew. rewrite pkind_hset. done. }
  assert (∀ o' k, view (hnew o (Priv p) [] h) o' k = upd (view h) o (Priv p) (OL []) o' k) as HV.
  { intros. by apply view_hnew. }
  split; [split; [by apply wf_hnew|]|].
  - eapply (Links_ext (K h) _ (upd (view h) o (Priv p) (OL []))); [done|done|]. apply Links_blank; [done| |done].
    by destruct (K h o p) as [[]|].
  - intros x p0 q ys. rewrite HK, HV. eapply MMNoDup_blank; [|done]. by destruct (K h o p) as [[]|].
Qed.

Lemma same_classes_hnew h o k xs : same_classes h (hnew o k xs h).
Proof. intros o'. unfold hnew. by rewrite cls_hset, cls_lset. Qed.

Lemma has_slot_hset h o p v : is_Some (cls_of h o) → has_slot (hset o (Priv p) v h) o p.
Proof. intros. unfold has_slot. rewrite slot_hset by done. eauto. Qed.

Lemma fits_hset h o x p q v :
  is_Some (cls_of h o) → ∀ r w, is_vlist w = false → (∀ p', K h o r ≠ Some (PManyOne p')) →
  fits_one_many S h x p q v → fits_one_many S (hset o (Priv r) w h) x p q v.
Proof.
  intros Hc r w Hw Hr [->|(t & ys & -> & He & Hv)]; [by left|right]. exists t, ys. split_and!; [done| |].
  - destruct He as (E1 & p' & E2 & E3). split; [by rewrite pkind_hset|]. exists p'. rewrite pkind_hset.
    split; [done|]. unfold resolves in *. setoid_rewrite pkind_hset. done.
  - rewrite view_hset by done. rewrite upd_ne; [done|]. intros [= -> ->]. destruct He as (_ & p' & E2 & _). naive_solver.
Qed.

Lemma adm_step_inv f h o env s :
  inv h → is_Some (cls_of h o) → adm_step S h o env s →
  ∃ h', run_step S (Datatypes.S (Datatypes.S (Datatypes.S f))) (VRef o) env s h = (inl tt, h') ∧ keeps_inv h h'.
Proof using Hde.
  intros Hi Hc Hadm. remember (Datatypes.S (Datatypes.S (Datatypes.S f))) as F eqn:HFu.
  destruct s as [p|p|p|p|p|]; cbn [adm_step run_step] in *.
  - (* SAttr *) destruct Hadm as (Hk & Hp & Hv). subst F. apply adm_set_inv; [done|]. unfold adm_set. by rewrite Hk.
  - (* SOne *) destruct Hadm as (Hb & Hk & Hadm).
    set (h1 := hset o (Priv p) VNone h) in *.
    assert (inv h1) as Hi1.
    { subst h1. eapply inv_blank; [done|done|done|done|done|]. by destruct (K h o p) as [[]|]. }
    destruct (adm_set_inv (Datatypes.S f) h1 o p (env_get env p)) as (h' & E & Hsc & Hi'); [done|done|].
    exists h'. split.
    + erewrite bind_inl; [|by apply write_key_ok]. by subst F.
    + split; [|done]. eapply same_classes_trans; [apply same_classes_hset|done].
  - (* SMany *) destruct Hadm as (Hb & Hadm). cbv zeta in Hadm.
    change (hset o (Priv p) (VList (fresh_list h)) (lset (fresh_list h) [] h)) with (hnew o (Priv p) [] h) in Hadm.
    assert (inv (hnew o (Priv p) [] h)) as Hi1.
    { apply inv_blank_list; [done..|]. by destruct (K h o p) as [[]|]. }
    destruct Hc as [ck Hck].
    destruct (hnew_facts h o (Priv p) ck) as (HF1 & HV1 & l & Hs1 & Hl1); [apply Hi|done|].
    assert (cls_of (hnew o (Priv p) [] h) o = Some ck) as Hc1 by (by rewrite (Frame_cls h)).
    assert (K h o p = lookup_prop S ck p) as HKo by (unfold pkind; by rewrite Hck).
    assert (∀ env, env = VNone → (match K h o p with Some (PManyOne _) | Some (PManyMany _) | Some (PManyOneDbl _) => True | _ => False end) →
      ∃ h', (let* l := new_list [] in write_key (VRef o) (Priv p) l ;;;
       (if decide (env = VNone) then let* l2 := new_list [] in setattr S F (VRef o) p l2 else setattr S F (VRef o) p env)) h = (inl tt, h') ∧ keeps_inv h h') as Hnone.
    { intros e -> Hkk. exists (hnew o (Priv p) [] (hnew o (Priv p) [] h)). split.
      - erewrite bind_inl; [|done]. erewrite bind_inl; cycle 1.
        { apply write_key_ok. rewrite cls_lset, Hck. eauto. }
        rewrite decide_True by done. subst F.
        change (hset o (Priv p) (VList (fresh_list h)) (lset (fresh_list h) [] h)) with (hnew o (Priv p) [] h).
        rewrite HKo in Hkk. destruct (lookup_prop S ck p) eqn:Ep; [|done].
        eapply set_coll_nil; [done|done| |done|done]. by destruct p0.
      - split; [eapply same_classes_trans; apply same_classes_hnew|].
        assert (∀ o' r, K (hnew o (Priv p) [] h) o' r = K h o' r) as HKn by (intros; by apply Frame_pkind).
        apply inv_blank_list; [done|rewrite Hc1; eauto| |].
        + right. by rewrite HV1, upd_eq.
        + rewrite HKn. by destruct (K h o p) as [[]|]. }
    assert (∀ ys, display h (env_get env p) ys → adm_set_list S (hnew o (Priv p) [] h) o p ys →
      ∃ h', (let* l := new_list [] in write_key (VRef o) (Priv p) l ;;;
       (if decide (env_get env p = VNone) then let* l2 := new_list [] in setattr S F (VRef o) p l2 else setattr S F (VRef o) p (env_get env p))) h = (inl tt, h') ∧ keeps_inv h h') as Hsome.
    { intros ys (l1 & -> & Hl & Hlo) Ha.
      destruct (proj2 (proj2 HF1) l1 _ Hl Hlo) as [Hl' Hlo'].
      destruct (set_list_inv f (hnew o (Priv p) [] h) o p l1 ys) as (h' & E & Hsc & Hi'); [done..|].
      exists h'. split.
      - erewrite bind_inl; [|done]. erewrite bind_inl; cycle 1.
        { apply write_key_ok. rewrite cls_lset, Hck. eauto. }
        rewrite decide_False by done. subst F. exact E.
      - split; [|done]. eapply same_classes_trans; [apply same_classes_hnew|done]. }
    destruct (K h o p) as [[]|] eqn:Hk; try done.
    + destruct Hadm as [?|(ys & ? & ?)]; [by apply Hnone|by eapply Hsome].
    + destruct Hadm as [?|(ys & ? & ?)]; [by apply Hnone|by eapply Hsome].
    + by apply Hnone.
  - (* SPlainMany *) destruct Hadm as (Hk & Hp & [->|(ys & l1 & -> & Hl & Hlo)]).
    + rewrite decide_True by done. subst F.
      apply (adm_set_list_inv f h o p []); [done|]. unfold adm_set_list. by rewrite Hk.
    + rewrite decide_False by done. subst F. eapply set_list_inv; [done..|]. unfold adm_set_list. by rewrite Hk.
  - (* SPriv *) destruct Hadm as (Hk & Hv). eexists. split; [by apply write_key_ok|].
    split; [apply same_classes_hset|]. apply inv_write; [done|done|by apply not_list_vlist|].
    intros p0 c [= <-]. rewrite Hk. by intros [= <-].
  - (* SImpedance *)
    destruct Hadm as (q & c1 & c2 & Hb & Hk & Hk1 & Hk2 & Hfit & Huniq).
    assert (u "SequenceImpedance" ≠ u "PerLengthImpedance" ∧ u "PhaseImpedance" ≠ u "PerLengthImpedance" ∧
      u "SequenceImpedance" ≠ u "PhaseImpedance") as (HnSL & HnPL & HnSP) by (by vm_compute).
    set (nS := u "SequenceImpedance") in *. set (nP := u "PhaseImpedance") in *. set (nL := u "PerLengthImpedance") in *.
    clearbody nS nP nL.
    set (h1 := hset o (Priv nS) VNone h) in *.
    set (h2 := hset o (Priv nP) VNone h1) in *.
    set (h3 := hset o (Priv nL) VNone h2) in *.
    assert (is_Some (cls_of h1 o)) as Hc1 by (by subst h1; rewrite cls_hset).
    assert (is_Some (cls_of h2 o)) as Hc2 by (by subst h2; rewrite cls_hset).
    assert (is_Some (cls_of h3 o)) as Hc3 by (by subst h3; rewrite cls_hset).
    assert (∀ o r, K h3 o r = K h o r) as HK.
    { intros. subst h3 h2 h1. by rewrite !pkind_hset. }
    assert (inv h1) as Hi1.
    { apply inv_write; [done..|]. intros p0 c [= <-]. rewrite Hk1. by intros [= <-]. }
    assert (inv h2) as Hi2.
    { apply inv_write; [done..|]. intros p0 c [= <-]. subst h1. rewrite pkind_hset, Hk2. by intros [= <-]. }
    assert (view h2 o (Priv nL) = view h o (Priv nL)) as Hv2.
    { subst h2. rewrite view_hset by done. rewrite upd_ne by congruence. subst h1. rewrite view_hset by done. by rewrite upd_ne by congruence. }
    assert (inv h3) as Hi3.
    { eapply inv_blank; [done|done|done|done| |].
      - unfold blank_slot. by rewrite Hv2.
      - subst h2 h1. by rewrite !pkind_hset, Hk. }
    assert (∀ p, p ∈ [nS; nP; nL] →
       fits_one_many S h3 o nL q (env_get env p)) as Hfit3.
    { intros p Hp. specialize (Hfit p Hp). subst h3 h2 h1.
      apply fits_hset; [done|done| |apply fits_hset; [done|done| |apply fits_hset; [done|done| |done]]];
        intros p'; rewrite ?pkind_hset; congruence. }
    assert (has_slot h3 o nL) as Hsl by (by apply has_slot_hset).
    assert (same_classes h h3) as Hsc3.
    { intros ?. subst h3 h2 h1. by rewrite !cls_hset. }
    assert (adm_set S h3 o nS (env_get env nS)) as A1.
    { unfold adm_set. rewrite HK, Hk1. split; [done|]. exists q. rewrite HK. split; [done|]. apply Hfit3. set_solver. }
    assert (adm_set S h3 o nP (env_get env nP)) as A2.
    { unfold adm_set. rewrite HK, Hk2. split; [done|]. exists q. rewrite HK. split; [done|]. apply Hfit3. set_solver. }
    assert (adm_set S h3 o nL (env_get env nL)) as A3.
    { unfold adm_set. rewrite HK, Hk. split; [done|]. apply Hfit3. set_solver. }
    assert (∀ p, adm_set S h3 o p (env_get env p) →
      ∃ h', setattr S F (VRef o) p (env_get env p) h3 = (inl tt, h') ∧ keeps_inv h h') as Hgo.
    { intros p Ha. destruct (adm_set_inv (Datatypes.S f) h3 o p (env_get env p)) as (h' & E & Hsc & Hi'); [done|done|].
      exists h'. subst F. split; [done|]. split; [|done]. by eapply same_classes_trans. }
    assert (∀ m h', m h3 = (inl tt, h') →
      (write_key (VRef o) (Priv nS) VNone ;;;
       write_key (VRef o) (Priv nP) VNone ;;;
       write_key (VRef o) (Priv nL) VNone ;;; m) h = (inl tt, h')) as Hrun.
    { intros m h' Hm. erewrite bind_inl; [|by apply write_key_ok]. erewrite bind_inl; [|by apply write_key_ok].
      erewrite bind_inl; [|by apply write_key_ok]. exact Hm. }
    set (seq := env_get env nS) in *.
    set (pha := env_get env nP) in *.
    set (per := env_get env nL) in *.
    assert (∀ (b1 b2 : pystr), b1 ∈ [nS; nP; nL] →
       b2 ∈ [nS; nP; nL] → b1 ≠ b2 →
       env_get env b1 ≠ VNone → env_get env b2 = VNone) as Hu.
    { intros b1 b2 H1 H2 Hne Hn. destruct (decide (env_get env b2 = VNone)); [done|]. destruct Hne.
      by apply Huniq. }
    destruct (decide (seq = VNone)) as [Eseq|Nseq].
    + destruct (decide (pha = VNone)) as [Epha|Npha].
      * destruct (decide (per = VNone)) as [Eper|Nper].
        -- exists h3. split; [|by split]. apply Hrun.
           rewrite decide_False by tauto. rewrite decide_False by tauto. rewrite decide_False by tauto. done.
        -- destruct (Hgo nL A3) as (h' & E & ?). exists h'. split; [|done]. apply Hrun.
           rewrite decide_False by tauto. rewrite decide_False by tauto. rewrite decide_True by tauto. done.
      * destruct (Hgo nP A2) as (h' & E & ?). exists h'. split; [|done]. apply Hrun.
        assert (per = VNone) as Eper by (apply (Hu nP); [set_solver|set_solver|done|done]).
        rewrite decide_False by tauto. rewrite decide_True by tauto. rewrite decide_False by tauto. done.
    + destruct (Hgo nS A1) as (h' & E & ?). exists h'. split; [|done]. apply Hrun.
      assert (pha = VNone) as Epha by (apply (Hu nS); [set_solver|set_solver|done|done]).
      assert (per = VNone) as Eper by (apply (Hu nS); [set_solver|set_solver|done|done]).
      rewrite decide_True by tauto. rewrite decide_False by tauto. done.
Qed.

Lemma adm_steps_inv f o env ss : ∀ h,
  inv h → is_Some (cls_of h o) → adm_steps S (Datatypes.S (Datatypes.S (Datatypes.S f))) h o env ss →
  ∃ h', for_each ss (run_step S (Datatypes.S (Datatypes.S (Datatypes.S f))) (VRef o) env) h = (inl tt, h') ∧ keeps_inv h h'.
Proof using Hde.
  induction ss as [|s ss IH]; intros h Hi Hc Hadm; [exists h; split; [done|by split]|].
  destruct Hadm as [Ha Hr]. destruct (adm_step_inv f h o env s) as (h1 & E1 & Hsc1 & Hi1); [done..|].
  destruct (IH h1) as (h2 & E2 & Hsc2 & Hi2); [done|by rewrite Hsc1|by apply Hr|].
  exists h2. split; [cbn [for_each]; by erewrite bind_inl|]. split; [|done]. by eapply same_classes_trans.
Qed.

Lemma adm_chain_inv f o cs : ∀ h pos kw,
  inv h → is_Some (cls_of h o) → adm_chain S (Datatypes.S (Datatypes.S (Datatypes.S f))) h o cs pos kw →
  ∃ h', init_chain S (Datatypes.S (Datatypes.S (Datatypes.S f))) cs (VRef o) pos kw h = (inl tt, h') ∧ keeps_inv h h'.
Proof using Hde.
  induction cs as [|c cs IH]; intros h pos kw Hi Hc Hadm.
  { destruct Hadm as [-> ->]. exists h. split; [done|by split]. }
  destruct Hadm as (env & pos' & kw' & Eb & Hnk & Hst & Hkw).
  destruct (adm_steps_inv f o env (c_steps c) h) as (h1 & E1 & Hsc1 & Hi1); [done..|].
  cbn [init_chain]. rewrite Eb. destruct (c_kw c) eqn:Ek.
  - destruct (Hkw eq_refl) as [Eso Hnext].
    destruct (IH h1 pos' kw') as (h2 & E2 & Hsc2 & Hi2); [done|by rewrite Hsc1|by apply Hnext|].
    exists h2. split; [|split; [by eapply same_classes_trans|done]].
    simpl. erewrite bind_inl by exact E1. by rewrite Eso.
  - destruct (Hnk eq_refl) as [-> ->]. exists h1. split; [|done]. simpl. by erewrite bind_inl by exact E1.
Qed.

Lemma inv_alloc h ck : inv h → inv (halloc (fresh_obj h) ck h).
Proof.
  intros [[Hwf HL] Hnd].
  destruct (halloc_facts h (fresh_obj h) ck) as (Hwf1 & Hc1 & _ & HV1); [done|apply fresh_obj_cls|].
  assert (∀ k, view h (fresh_obj h) k = None) as HVo.
  { intros k. destruct (view h (fresh_obj h) k) eqn:Ev; [|done]. apply view_Some_cls in Ev.
    rewrite fresh_obj_cls in Ev. by destruct Ev. }
  assert (∀ o r, o ≠ fresh_obj h → K (halloc (fresh_obj h) ck h) o r = K h o r) as HK.
  { intros o r Hne. unfold pkind. by rewrite Hc1, decide_False. }
  split; [split; [done|]|].
  - eapply (Links_ext _ _ (view h)); [done|done|]. by eapply Links_alloc.
  - intros x p q ys Hk. rewrite HV1. intros Hv. assert (x ≠ fresh_obj h) by (intros ->; by rewrite HVo in Hv).
    rewrite HK in Hk by done. by eapply Hnd.
Qed.

Lemma eval_kw_inv kw : ∀ h, inv h → ∃ vs h', eval_kw kw h = (inl vs, h') ∧ keeps_inv h h'.
Proof.
  induction kw as [|[n [v|ys]] kw IH]; intros h Hi.
  - exists [], h. split; [done|by split].
  - destruct (IH h Hi) as (vs & h' & E & ?). exists ((n, v) :: vs), h'. split; [|done].
    cbn [eval_kw]. by erewrite bind_inl by exact E.
  - destruct (IH (lset (fresh_list h) (map VRef ys) h)) as (vs & h' & E & Hsc & ?); [by apply inv_new_list|].
    exists ((n, VList (fresh_list h)) :: vs), h'. split; [|split; [|done]].
    + cbn [eval_kw]. erewrite bind_inl; [|done]. by erewrite bind_inl by exact E.
    + intros o. rewrite Hsc. apply cls_lset.
Qed.

(** Every admissible statement succeeds and keeps the invariant. *)
Lemma adm_op_inv f h c :
  inv h → adm_op S (Datatypes.S (Datatypes.S (Datatypes.S f))) h c →
  ∃ h', run_op S (Datatypes.S (Datatypes.S (Datatypes.S f))) c h = (inl tt, h') ∧ inv h'.
Proof using Hde.
  intros Hi Hadm. destruct c as [ck kw|o p v|o p ys|o p ys|o p ys]; cbn [adm_op run_op] in *.
  - destruct Hadm as [[cl Hcl] Hadm]. destruct (eval_kw_inv kw h Hi) as (vs & h1 & E & Hsc & Hi1).
    specialize (Hadm vs h1 E).
    destruct (adm_chain_inv f (fresh_obj h1) (mro S ck) (halloc (fresh_obj h1) ck h1) [] vs) as (h2 & E2 & _ & Hi2).
    + by apply inv_alloc.
    + destruct (halloc_facts h1 (fresh_obj h1) ck) as (_ & Hc1 & _); [apply Hi1|apply fresh_obj_cls|].
      rewrite Hc1, decide_True by done. eauto.
    + exact Hadm.
    + exists h2. split; [|done]. erewrite bind_inl by exact E. erewrite bind_inl; [done|].
      unfold construct. rewrite Hcl. by erewrite bind_inl by exact E2.
  - destruct (adm_set_inv (Datatypes.S f) h o p v) as (h' & E & _ & ?); eauto.
  - destruct (adm_set_list_inv f h o p ys) as (h' & E & _ & ?); eauto.
  - destruct (adm_add_inv (Datatypes.S f) h o p ys) as (h' & E & _ & ?); eauto.
  - destruct (adm_remove_inv (Datatypes.S f) h o p ys) as (h' & E & _ & ?); eauto.
Qed.

Lemma adm_ops_inv f cs : ∀ h,
  inv h → adm_ops S (Datatypes.S (Datatypes.S (Datatypes.S f))) h cs →
  ∃ h', run_ops S (Datatypes.S (Datatypes.S (Datatypes.S f))) cs h = (inl tt, h') ∧ inv h'.
Proof using Hde.
  induction cs as [|c cs IH]; intros h Hi Hadm; [by exists h|]. destruct Hadm as [Ha Hr].
  destruct (adm_op_inv f h c) as (h1 & E1 & Hi1); [done..|].
  destruct (IH h1) as (h2 & E2 & Hi2); [done|by apply Hr|].
  exists h2. split; [|done]. unfold run_ops. cbn [for_each]. by erewrite bind_inl by exact E1.
Qed.

Lemma inv_empty : inv heap_empty.
Proof.
  assert (∀ o k, slot heap_empty o k = None) as Hs.
  { intros. unfold slot, heap_empty; simpl. by rewrite lookup_empty. }
  assert (∀ o k, view heap_empty o k = None) as HV.
  { intros. unfold view. by rewrite Hs. }
  split; [split; split|].
  - intros o k l. by rewrite Hs.
  - intros o k o' k' l. by rewrite Hs.
  - intros * _. by rewrite HV.
  - intros * _. by rewrite HV.
  - intros * _. by rewrite HV.
  - intros * _. by rewrite HV.
  - intros ???? _. by rewrite HV.
Qed.

Lemma inv_Mutual h : inv h → Mutual S h.
Proof.
  intros [[Hwf HL] Hnd]. split.
  - intros x p t q w ys He Hx Ht. split.
    + intros ->. destruct (lk_single _ _ HL _ _ _ _ (proj1 He) Hx) as [|(t' & ys' & [= <-] & _ & Hv & Hin)]; [done|].
      congruence.
    + intros Hin. destruct He as (He1 & p' & He2 & He3).
      destruct (lk_coll _ _ HL _ _ _ _ He2 Ht) as (? & [= <-] & _ & Hm).
      destruct (Hm _ Hin) as (x' & p2 & [= <-] & He' & Hv).
      assert (p2 = p) as -> by (eapply ends_fun; [done|split; eauto]). congruence.
  - intros t q p ys Hk Ht. destruct (lk_coll _ _ HL _ _ _ _ Hk Ht) as (? & [= <-] & ? & _). done.
  - intros x p y q v w [He1 He2] Hx Hy. split; intros ->.
    + destruct (lk_one_one _ _ HL _ _ _ _ He1 Hx) as [|(? & [= <-] & _ & ?)]; congruence.
    + destruct (lk_one_one _ _ HL _ _ _ _ He2 Hy) as [|(? & [= <-] & _ & ?)]; congruence.
  - intros x p y q ps qs [He1 He2] Hx Hy. split; intros Hin.
    + destruct (lk_many_many _ _ HL _ _ _ _ He1 Hx) as (? & [= <-] & Hm).
      destruct (Hm _ Hin) as (? & ? & [= <-] & _ & ? & ?). congruence.
    + destruct (lk_many_many _ _ HL _ _ _ _ He2 Hy) as (? & [= <-] & Hm).
      destruct (Hm _ Hin) as (? & ? & [= <-] & _ & ? & ?). congruence.
  - done.
  - apply (wf_unshared _ Hwf).
Qed.
End facts.
