(** Exact behaviour of the generated classes where they depart from what one
    would expect: foreign removes, take-overs, repeated adds, reassignment of
    many-to-many collections, shared lists and failing assignments. *)
From Coq Require Import String.
From stdpp Require Import prelude gmap.
From Verif Require Import PyStr PyHeap Schema Assoc AssocSpec HeapFacts LinksFacts AssocFacts
  AddRemoveFacts CtorFacts History HistorySpec HistoryFacts.

Section extra.
Context (S : schema).
Notation K := (pkind S).

(** removeQ(x) on an object that is not x's owner. *)
Lemma remove_foreign f h t q p' p x :
  Consistent S h → K h t q = Some (PManyOne p') → K h x p = Some (POneMany q) →
  resolves (K h) x p' p → has_slot h x p → view h x (Priv p) ≠ Some (OV (VRef t)) →
  ∃ h', remove S (Datatypes.S (Datatypes.S f)) (VRef t) q [VRef x] h = (inl tt, h') ∧ same_classes h h' ∧
    ((view h x (Priv p) = Some (OV VNone) ∧ ∀ o k, view h' o k = view h o k) ∨
     (∃ u zs, u ≠ t ∧ view h x (Priv p) = Some (OV (VRef u)) ∧
        view h u (Priv q) = Some (OL zs) ∧ VRef x ∈ zs ∧
        view h' x (Priv p) = Some (OV VNone) ∧
        view h' u (Priv q) = Some (OL (filter (λ y, y ≠ VRef x) zs)) ∧
        ∀ o k, (o, k) ≠ (x, Priv p) → (o, k) ≠ (u, Priv q) → view h' o k = view h o k)).
Proof.
  intros HC Hk Hx Hr Hs Hnt.
  destruct (remove_one_many_effect S f h t q p' p [x]) as (h' & E & HF & HC' & HA & _); [done..| |].
  { intros z ->%elem_of_list_singleton. done. }
  exists h'. split; [done|]. split; [apply HF|].
  destruct (slotful_view h x p) as [w Hw]; [apply HC|done|].
  destruct (lk_single _ _ (proj2 HC) _ _ _ _ Hx Hw) as [->|(u & zs & -> & He & Hu & Hin)].
  - left. split; [done|]. intros o k. destruct (decide ((o, k) = (x, Priv p))) as [[= -> ->]|Hne].
    { rewrite (aa_member _ _ _ _ _ _ HA); [done|]. by apply elem_of_list_singleton. }
    apply (aa_frame _ _ _ _ _ _ HA).
    + intros ->. intros ->%elem_of_list_singleton. done.
    + done.
    + intros _ z ->%elem_of_list_singleton. congruence.
  - right. exists u, zs. split_and!; [congruence|done..| | |].
    + apply (aa_member _ _ _ _ _ _ HA). by apply elem_of_list_singleton.
    + rewrite (aa_old _ _ _ _ _ _ HA u zs); [|done|done]. do 2 f_equal.
      apply list_filter_iff. intros y. rewrite filter_cons_True by done. rewrite filter_nil.
      cbn [map]. by rewrite elem_of_list_singleton.
    + intros o k Hn1 Hn2. apply (aa_frame _ _ _ _ _ _ HA).
      * intros -> ->%elem_of_list_singleton. done.
      * done.
      * intros -> z ->%elem_of_list_singleton. congruence.
Qed.

(** t.Q = [ys...] where one of the ys belongs to u. *)
Lemma assign_takes_nothing f h t q p l ys x v :
  Consistent S h → K h t q = Some (PManyOne p) → slot h t (Priv q) = Some v →
  h_lists h !! l = Some (map VRef ys) → loose h l →
  (∀ y, y ∈ ys → K h y p = Some (POneMany q)) →
  ∀ u zs, x ∈ ys → u ≠ t → view h x (Priv p) = Some (OV (VRef u)) → view h u (Priv q) = Some (OL zs) →
  ∃ h', setattr S (Datatypes.S (Datatypes.S (Datatypes.S f))) (VRef t) q (VList l) h = (inl tt, h') ∧ same_classes h h' ∧
    view h' t (Priv q) = Some (OL (map VRef ys)) ∧ view h' x (Priv p) = Some (OV (VRef t)) ∧
    view h' u (Priv q) = Some (OL zs) ∧ VRef x ∈ zs ∧ ¬ Mutual S h'.
Proof.
  intros HC Hk Hs Hl Hlo Hys u zs Hx Hut Hxu Hu.
  destruct (set_many_one_effect S f h t q p v l ys) as (h' & E & (Hwf' & Hsc & _) & HS); [done..|].
  destruct (lk_single _ _ (proj2 HC) _ _ _ _ (Hys _ Hx) Hxu) as [|(? & ? & [= <-] & He & Hu' & Hin)]; [done|].
  rewrite Hu in Hu'. injection Hu' as <-.
  assert (view h' u (Priv q) = Some (OL zs)) as Hu'.
  { rewrite (sc_frame _ _ _ _ _ _ _ HS); [done|congruence| |].
    - intros Huys [= ->]. destruct He as (_ & ? & ? & _). rewrite (Hys _ Huys) in *. congruence.
    - intros xs pz [= <-] _ _ [? _]. destruct He as (_ & ? & ? & _). congruence. }
  exists h'. split_and!; [done|done|apply HS|by apply HS|done|done|].
  intros HM. assert (∀ o r, K h' o r = K h o r) as HK by (intros; by apply pkind_same).
  assert (ends_one_many (K h') x p u q) as He'.
  { destruct He as (E1 & p2 & E2 & E3). split; [by rewrite HK|]. exists p2. rewrite HK. split; [done|].
    destruct E3 as [[-> ?]|[c ?]]; [left|right]; setoid_rewrite HK; eauto. }
  pose proof (mu_one_many _ _ HM _ _ _ _ _ _ He' (sc_new _ _ _ _ _ _ _ HS _ Hx) Hu') as Hiff.
  apply Hiff in Hin. congruence.
Qed.

(** A second addP of the same partner. *)
Lemma add_many_again f h x p q y ps :
  Consistent S h → p ≠ q → ends_many_many (K h) x p y q → view h x (Priv p) = Some (OL ps) → VRef y ∈ ps →
  ∃ h', add S f (VRef x) p [VRef y] h = (inl tt, h') ∧ same_classes h h' ∧
    view h' x (Priv p) = Some (OL (ps ++ [VRef y])) ∧ ¬ NoDup (ps ++ [VRef y]) ∧
    (∀ o k, (o, k) ≠ (x, Priv p) → view h' o k = view h o k).
Proof.
  intros HC Hpq [He1 He2] Hv Hin.
  destruct (lk_many_many _ _ (proj2 HC) _ _ _ _ He1 Hv) as (? & [= <-] & Hm).
  destruct (Hm _ Hin) as (? & qs & [= <-] & _ & Hy & Hxin).
  destruct (add_many_many_exec S f h x p q y ps qs) as (h' & E & HF & HA); [apply HC|done..|].
  exists h'. split_and!; [done|apply HF|by apply (am_self _ _ _ _ _ _ HA)| |].
  - intros (_ & Hd & _)%NoDup_app. apply (Hd _ Hin). by apply elem_of_list_singleton.
  - intros o k Hne. destruct (decide ((o, k) = (y, Priv q))) as [[= -> ->]|Hne2].
    + rewrite (am_other _ _ _ _ _ _ HA _ Hy). by rewrite decide_True.
    + by apply (am_frame _ _ _ _ _ _ HA).
Qed.

(** addP(y), addP(y), removeP(y): the two ends disagree. *)
Lemma add_add_remove f h x p q y ps qs :
  Consistent S h → MMNoDup (K h) (view h) → p ≠ q → ends_many_many (K h) x p y q →
  view h x (Priv p) = Some (OL ps) → view h y (Priv q) = Some (OL qs) → VRef y ∉ ps →
  ∃ h', (add S f (VRef x) p [VRef y] ;;; add S f (VRef x) p [VRef y] ;;; remove S f (VRef x) p [VRef y]) h = (inl tt, h') ∧
    same_classes h h' ∧
    view h' x (Priv p) = Some (OL (ps ++ [VRef y])) ∧ view h' y (Priv q) = Some (OL qs) ∧ VRef x ∉ qs ∧
    ¬ Mutual S h'.
Proof.
  intros HC Hnd Hpq [He1 He2] Hx Hy Hni.
  assert (VRef x ∉ qs) as Hni2.
  { intros Hin. destruct (lk_many_many _ _ (proj2 HC) _ _ _ _ He2 Hy) as (? & [= <-] & Hm).
    destruct (Hm _ Hin) as (? & ? & [= <-] & _ & ? & ?). congruence. }
  destruct (add_many_many_exec S f h x p q y ps qs) as (h1 & E1 & HF1 & HA1); [apply HC|done..|].
  pose proof (am_self _ _ _ _ _ _ HA1 _ Hx) as Hx1. pose proof (am_other _ _ _ _ _ _ HA1 _ Hy) as Hy1.
  rewrite decide_False in Hy1 by done.
  assert (∀ o r, K h1 o r = K h o r) as HK1 by (intros; by apply Frame_pkind).
  destruct (add_many_many_exec S f h1 x p q y (ps ++ [VRef y]) (qs ++ [VRef x])) as (h2 & E2 & HF2 & HA2);
    [by eapply Frame_wf|done|by rewrite HK1|done|done|].
  pose proof (am_self _ _ _ _ _ _ HA2 _ Hx1) as Hx2. pose proof (am_other _ _ _ _ _ _ HA2 _ Hy1) as Hy2.
  rewrite decide_True in Hy2 by (apply elem_of_app; right; by apply elem_of_list_singleton).
  assert (∀ o r, K h2 o r = K h o r) as HK2 by (intros; rewrite <- HK1; by apply Frame_pkind).
  destruct (remove_many_many_exec S f h2 x p q y ((ps ++ [VRef y]) ++ [VRef y]) (qs ++ [VRef x])) as (h3 & E3 & HF3 & HA3);
    [by eapply Frame_wf|done|by rewrite HK2|done|done| | |].
  { apply elem_of_app. right. by apply elem_of_list_singleton. }
  { apply elem_of_app. right. by apply elem_of_list_singleton. }
  assert (∀ (a b c d : list val) e, a ++ e :: b = c ++ e :: d → e ∉ a → e ∉ c → a = c ∧ b = d) as Hsplit.
  { intros a. induction a as [|z a IH]; intros b [|w c] d e; simpl.
    - intros [= ->]. done.
    - intros [= -> ?] _ []. left.
    - intros [= -> ?] []. left.
    - intros [= -> Heq] Ha Hc. apply not_elem_of_cons in Ha as [_ Ha]. apply not_elem_of_cons in Hc as [_ Hc].
      by destruct (IH _ _ _ _ Heq Ha Hc) as [-> ->]. }
  destruct (rm_self _ _ _ _ _ _ HA3) as (a & b & Ha & Hna & Hx3).
  rewrite Hx2 in Ha. injection Ha as Ha. rewrite <- app_assoc in Ha. simpl in Ha.
  destruct (Hsplit _ _ _ _ _ Ha) as [<- <-]; [done|done|].
  destruct (rm_other _ _ _ _ _ _ HA3) as (c & d & Hc & Hnc & Hy3).
  rewrite Hy2 in Hc. injection Hc as Hc. destruct (Hsplit _ _ _ _ _ Hc) as [<- <-]; [done|done|].
  rewrite app_nil_r in Hy3.
  assert (same_classes h h3) as Hsc.
  { eapply same_classes_trans; [apply HF1|]. eapply same_classes_trans; [apply HF2|]. apply HF3. }
  exists h3. split_and!; [|done..|].
  - erewrite bind_inl by exact E1. erewrite bind_inl by exact E2. exact E3.
  - intros HM. assert (ends_many_many (K h3) x p y q) as He3.
    { unfold ends_many_many. rewrite !(pkind_same _ h h3) by done. done. }
    pose proof (mu_many_many _ _ HM _ _ _ _ _ _ He3 Hx3 Hy3) as Hiff. apply Hni2, Hiff.
    apply elem_of_app. right. by apply elem_of_list_singleton.
Qed.

(** Assigning a many-to-many collection that is not empty. *)
Lemma reassign_many f h x p q e ps v :
  Consistent S h → K h x p = Some (PManyMany q) → view h x (Priv p) = Some (OL (e :: ps)) →
  ∃ h', setattr S (Datatypes.S f) (VRef x) p v h = (inr AttributeError, h') ∧ same_classes h h' ∧
    (∀ o k, view h' o k = view h o k).
Proof.
  intros HC Hk Hv.
  destruct (lk_many_many _ _ (proj2 HC) _ _ _ _ Hk Hv) as (? & [= <-] & Hm).
  destruct (Hm e) as (y & qs & -> & [_ Hky] & Hy & _); [left|].
  destruct (view_OL _ _ _ _ Hv) as (l & Hs & Hl). destruct (view_OL _ _ _ _ Hy) as (l2 & Hs2 & Hl2).
  destruct (new_list_Frame h (without (VRef x) qs)) as (HF & _ & HV); [apply HC|].
  eexists. split_and!; [|apply HF|exact HV].
  cbn [setattr]. rewrite obj_prop_pkind, Hk. erewrite bind_inl by (by apply read_key_ok).
  erewrite (bind_inl (iter_val (VList l))); [|unfold iter_val; by rewrite Hl].
  apply bind_inr. cbn [for_each]. apply bind_inr.
  erewrite bind_inl; [|unfold getattr; rewrite obj_prop_pkind, Hky; by apply read_key_ok].
  erewrite (bind_inl (iter_val (VList l2))); [|unfold iter_val; by rewrite Hl2].
  erewrite bind_inl; [|done].
  erewrite bind_inl; [|apply read_key_ok; by rewrite slot_lset].
  done.
Qed.

(** Assigning a many-to-many collection that is empty. *)
Lemma assign_many f h t q p l ys :
  Consistent S h → MMNoDup (K h) (view h) → p ≠ q → K h t q = Some (PManyMany p) → view h t (Priv q) = Some (OL []) →
  h_lists h !! l = Some (map VRef ys) → loose h l → NoDup ys →
  (∀ y, y ∈ ys → ends_many_many (K h) t q y p ∧ ∃ xs, view h y (Priv p) = Some (OL xs)) →
  ∃ h', setattr S (Datatypes.S f) (VRef t) q (VList l) h = (inl tt, h') ∧ same_classes h h' ∧
    view h' t (Priv q) = Some (OL (map VRef ys)) ∧
    (∀ y xs, y ∈ ys → view h y (Priv p) = Some (OL xs) → view h' y (Priv p) = Some (OL (xs ++ [VRef t]))) ∧
    (∀ o k, (o, k) ≠ (t, Priv q) → (k = Priv p → o ∉ ys) → view h' o k = view h o k) ∧
    Consistent S h' ∧ MMNoDup (K h') (view h').
Proof.
  intros HC Hnd Hpq Hk Hv Hl Hlo Hys Hm.
  destruct (view_OL _ _ _ _ Hv) as (l0 & Hs0 & Hl0).
  destruct (append_each t p ys h) as (h1 & E1 & HF1 & Hm1 & Hfr1); [apply HC|done| |].
  { intros y Hy. destruct (Hm y Hy) as ((_ & Hky) & xs & Hx). exists xs. split; [done|]. intros Hin.
    destruct (lk_many_many _ _ (proj2 HC) _ _ _ _ Hky Hx) as (? & [= <-] & Hmm).
    destruct (Hmm _ Hin) as (? & zs & [= <-] & _ & Hz & Hinz). rewrite Hv in Hz. simplify_eq.
    by apply elem_of_nil in Hinz. }
  pose proof (Frame_wf _ _ HF1) as Hwf1.
  assert (h_lists h1 !! l = Some (map VRef ys) ∧ loose h1 l) as [Hl1 Hlo1].
  { destruct HF1 as (_ & _ & HKp). by apply HKp. }
  assert (is_Some (cls_of h t)) as Hct by (by eapply slot_cls).
  assert (is_Some (cls_of h1 t)) as Hct1 by (by rewrite (Frame_cls h)).
  assert (∀ o k, view (hset t (Priv q) (VList l) h1) o k = upd (view h1) t (Priv q) (OL (map VRef ys)) o k) as HV2.
  { intros. by erewrite view_hset_list. }
  exists (hset t (Priv q) (VList l) h1).
  assert (same_classes h (hset t (Priv q) (VList l) h1)) as Hsc.
  { eapply same_classes_trans; [apply HF1|apply same_classes_hset]. }
  assert (∀ o r, K (hset t (Priv q) (VList l) h1) o r = K h o r) as HK by (intros; by apply pkind_same).
  assert (∀ o k, (o, k) ≠ (t, Priv q) → (k = Priv p → o ∉ ys) → view (hset t (Priv q) (VList l) h1) o k = view h o k) as Hfr.
  { intros o k Hn1 Hn2. rewrite HV2, upd_ne by done. by apply Hfr1. }
  assert (view (hset t (Priv q) (VList l) h1) t (Priv q) = Some (OL (map VRef ys))) as Hself by (by rewrite HV2, upd_eq).
  assert (∀ y xs, y ∈ ys → view h y (Priv p) = Some (OL xs) →
    view (hset t (Priv q) (VList l) h1) y (Priv p) = Some (OL (xs ++ [VRef t]))) as Hmem.
  { intros y xs Hy Hx. rewrite HV2, upd_ne by congruence. by apply Hm1. }
  destruct (Links_fill (K h) (view h) (view (hset t (Priv q) (VList l) h1)) t q p ys) as [HL2 Hnd2];
    [apply HC|done..| |done|done|].
  { intros y Hy. destruct (Hm y Hy) as ((_ & Hky) & xs & Hx). split; [done|]. exists xs. split; [done|].
    by apply Hmem. }
  split_and!; [|done..| |].
  - cbn [setattr]. rewrite obj_prop_pkind, Hk.
    erewrite bind_inl; [|by apply read_key_ok].
    erewrite (bind_inl (iter_val (VList l0))); [|unfold iter_val; by rewrite Hl0].
    erewrite bind_inl; [|done].
    erewrite bind_inl; [|rewrite (live_append_same _ _ _ _ _ Hlo Hl); exact E1]. by rewrite write_key_ok.
  - split; [by eapply wf_hset_list|].
    eapply (Links_ext (K h) _ (view (hset t (Priv q) (VList l) h1))); [done|done|done].
  - intros x p0 q0 zs. rewrite HK. apply Hnd2.
Qed.

(** x.removeP(y): y is in x.P, or it is not. *)
Lemma remove_many_filter f h x p q y ps qs :
  Consistent S h → MMNoDup (K h) (view h) → p ≠ q → ends_many_many (K h) x p y q →
  view h x (Priv p) = Some (OL ps) → view h y (Priv q) = Some (OL qs) → VRef y ∈ ps →
  ∃ h', remove S f (VRef x) p [VRef y] h = (inl tt, h') ∧ same_classes h h' ∧
    view h' x (Priv p) = Some (OL (filter (λ e, e ≠ VRef y) ps)) ∧
    view h' y (Priv q) = Some (OL (filter (λ e, e ≠ VRef x) qs)) ∧
    (∀ o k, (o, k) ≠ (x, Priv p) → (o, k) ≠ (y, Priv q) → view h' o k = view h o k) ∧
    Consistent S h' ∧ MMNoDup (K h') (view h').
Proof.
  intros HC Hnd Hpq He Hx Hy Hin. pose proof He as [He1 He2].
  assert (VRef x ∈ qs) as Hin2.
  { destruct (lk_many_many _ _ (proj2 HC) _ _ _ _ He1 Hx) as (? & [= <-] & Hm).
    destruct (Hm _ Hin) as (? & ? & [= <-] & _ & Hy' & ?). rewrite Hy in Hy'. injection Hy' as <-. done. }
  destruct (remove_many_many_exec S f h x p q y ps qs) as (h' & E & HF & HR); [apply HC|done..|].
  assert (∀ a b e, NoDup (a ++ e :: b) → filter (λ z : val, z ≠ e) (a ++ e :: b) = a ++ b) as Hflt.
  { intros a b e Hd. rewrite <- Permutation_middle in Hd. apply NoDup_cons in Hd as [Hne _].
    apply not_elem_of_app in Hne as [Ha Hb]. rewrite filter_app, filter_cons_False by (intros ?; done).
    assert (∀ c : list val, e ∉ c → filter (λ z : val, z ≠ e) c = c) as Hid.
    { intros c. induction c as [|z c IH]; intros Hc; [done|]. apply not_elem_of_cons in Hc as [? ?].
      rewrite filter_cons_True by congruence. by rewrite IH. }
    by rewrite !Hid. }
  destruct (Links_RemoveMany (K h) (view h) (view h') x p y q) as [HL' Hnd']; [apply HC|done..|].
  assert (∀ o r, K h' o r = K h o r) as HK by (intros; by apply Frame_pkind).
  exists h'. split_and!; [done|apply HF| | |apply HR| |].
  - destruct (rm_self _ _ _ _ _ _ HR) as (a & b & Ha & _ & ->). rewrite Hx in Ha. injection Ha as ->.
    rewrite Hflt; [done|]. by eapply (Hnd x p q).
  - destruct (rm_other _ _ _ _ _ _ HR) as (a & b & Ha & _ & ->). rewrite Hy in Ha. injection Ha as ->.
    rewrite Hflt; [done|]. by eapply (Hnd y q p).
  - split; [by eapply Frame_wf|]. by eapply (Links_ext (K h) _ (view h')).
  - intros ????. rewrite HK. apply Hnd'.
Qed.
Lemma remove_many_none f h x p q y ps qs :
  Consistent S h → ends_many_many (K h) x p y q →
  view h x (Priv p) = Some (OL ps) → view h y (Priv q) = Some (OL qs) → VRef y ∉ ps →
  remove S f (VRef x) p [VRef y] h = (inr ValueError, h).
Proof.
  intros HC [He1 He2] Hx Hy Hni. eapply remove_many_many_absent; [done..|].
  intros Hin. destruct (lk_many_many _ _ (proj2 HC) _ _ _ _ He2 Hy) as (? & [= <-] & Hm).
  destruct (Hm _ Hin) as (? & ? & [= <-] & _ & ? & ?). congruence.
Qed.

(** Two collections that are one list object: x.P = t1 shows in t2.Q. *)
Lemma shared_list f h t1 t2 q p x l ys :
  K h x p = Some (POneMany q) → slot h x (Priv p) = Some VNone →
  (t1, Priv q) ≠ (x, Priv p) → (t2, Priv q) ≠ (x, Priv p) →
  slot h t1 (Priv q) = Some (VList l) → slot h t2 (Priv q) = Some (VList l) →
  h_lists h !! l = Some ys → VRef x ∉ ys →
  ∃ h', setattr S (Datatypes.S f) (VRef x) p (VRef t1) h = (inl tt, h') ∧
    view h' t1 (Priv q) = Some (OL (ys ++ [VRef x])) ∧
    view h' t2 (Priv q) = Some (OL (ys ++ [VRef x])) ∧
    view h' x (Priv p) = Some (OV (VRef t1)) ∧ same_classes h h'.
Proof.
  intros Hk Hs Hn1 Hn2 H1 H2 Hl Hni. assert (is_Some (cls_of h x)) as Hc by (by eapply slot_cls).
  exists (lset l (ys ++ [VRef x]) (hset x (Priv p) (VRef t1) h)). split_and!.
  - cbn [setattr]. rewrite obj_prop_pkind, Hk. erewrite bind_inl by (by apply read_key_ok).
    erewrite bind_inl; [|by rewrite decide_True].
    erewrite bind_inl by (by apply write_key_ok).
    erewrite bind_inl; [|apply read_key_ok; by apply slot_hset].
    rewrite decide_False by done.
    erewrite bind_inl; [|apply read_key_ok; by rewrite slot_hset_ne].
    erewrite (bind_inl (contains _ _)); [|unfold contains; by rewrite lists_hset, Hl].
    cbv beta. rewrite bool_decide_eq_false_2 by done. unfold append. by rewrite lists_hset, Hl.
  - eapply view_list; [by rewrite slot_lset, slot_hset_ne|by rewrite lists_lset].
  - eapply view_list; [by rewrite slot_lset, slot_hset_ne|by rewrite lists_lset].
  - apply view_slot; [|done]. by rewrite slot_lset, slot_hset.
  - intros o. rewrite cls_lset. by apply cls_hset.
Qed.

(** t1.Q = l; t2.Q = l; x.P = t1 with an empty list l: x is in t2.Q too. *)
Lemma shared_twice f h t1 t2 q p' p x l l1 l2 :
  K h t1 q = Some (PManyOne p') → K h t2 q = Some (PManyOne p') → t1 ≠ t2 →
  slot h t1 (Priv q) = Some (VList l1) → h_lists h !! l1 = Some [] →
  slot h t2 (Priv q) = Some (VList l2) → h_lists h !! l2 = Some [] →
  h_lists h !! l = Some [] →
  ends_one_many (K h) x p t2 q → slot h x (Priv p) = Some VNone →
  ∃ h', (setattr S (Datatypes.S f) (VRef t1) q (VList l) ;;;
         setattr S (Datatypes.S f) (VRef t2) q (VList l) ;;;
         setattr S (Datatypes.S f) (VRef x) p (VRef t1)) h = (inl tt, h') ∧ same_classes h h' ∧
    view h' t1 (Priv q) = Some (OL [VRef x]) ∧ view h' t2 (Priv q) = Some (OL [VRef x]) ∧
    view h' x (Priv p) = Some (OV (VRef t1)) ∧ ¬ Mutual S h'.
Proof.
  intros Hk1 Hk2 Hne Hs1 Hl1 Hs2 Hl2 Hl He Hx.
  assert (∀ h t l0, K h t q = Some (PManyOne p') → slot h t (Priv q) = Some (VList l0) →
    h_lists h !! l0 = Some [] → h_lists h !! l = Some [] →
    setattr S (Datatypes.S f) (VRef t) q (VList l) h = (inl tt, hset t (Priv q) (VList l) h)) as Hset.
  { clear. intros h t l0 Hk Hs Hl0 Hl. assert (is_Some (cls_of h t)) by (by eapply slot_cls).
    cbn [setattr]. rewrite obj_prop_pkind, Hk. erewrite bind_inl by (by apply read_key_ok).
    erewrite (bind_inl (iter_val (VList l0))); [|unfold iter_val; by rewrite Hl0]. erewrite bind_inl; [|done].
    erewrite (bind_inl (iter_val (VList l))); [|unfold iter_val; by rewrite Hl]. erewrite bind_inl; [|done].
    by apply write_key_ok. }
  set (h1 := hset t1 (Priv q) (VList l) h). set (h2 := hset t2 (Priv q) (VList l) h1).
  assert (is_Some (cls_of h t1)) as Hc1 by (by eapply slot_cls).
  assert (is_Some (cls_of h1 t2)) as Hc2 by (unfold h1; rewrite cls_hset; by eapply slot_cls).
  assert (same_classes h h2) as Hsc12.
  { intros o. unfold h2, h1. by rewrite !cls_hset. }
  assert (∀ o r, K h2 o r = K h o r) as HK2 by (intros; by apply pkind_same).
  destruct He as (Hkx & p2 & Hkt & Hres).
  assert ((t1, Priv q) ≠ (x, Priv p)) as Hn1 by (intros [= -> ->]; congruence).
  assert ((t2, Priv q) ≠ (x, Priv p)) as Hn2 by (intros [= -> ->]; congruence).
  destruct (shared_list f h2 t1 t2 q p x l []) as (h3 & E3 & V1 & V2 & V3 & Hsc3).
  { by rewrite HK2. }
  { unfold h2, h1. by rewrite !slot_hset_ne. }
  { done. }
  { done. }
  { unfold h2. rewrite slot_hset_ne by congruence. unfold h1. by apply slot_hset. }
  { unfold h2. by apply slot_hset. }
  { unfold h2, h1. by rewrite !lists_hset. }
  { apply not_elem_of_nil. }
  assert (same_classes h h3) as Hsc by (by eapply same_classes_trans).
  exists h3. split_and!; [|done|done|done|done|].
  - erewrite bind_inl; [|by eapply Hset]. fold h1.
    erewrite bind_inl; [|eapply Hset; [unfold h1; rewrite pkind_same with (h := h); [done|apply same_classes_hset]| | |]].
    + exact E3.
    + unfold h1. rewrite slot_hset_ne by congruence. done.
    + unfold h1. by rewrite lists_hset.
    + unfold h1. by rewrite lists_hset.
  - intros HM. assert (∀ o r, K h3 o r = K h o r) as HK3 by (intros; by apply pkind_same).
    assert (ends_one_many (K h3) x p t2 q) as He3.
    { split; [by rewrite HK3|]. exists p2. rewrite HK3. split; [done|].
      destruct Hres as [[-> ?]|[c ?]]; [left|right]; setoid_rewrite HK3; eauto. }
    pose proof (mu_one_many _ _ HM _ _ _ _ _ _ He3 V3 V2) as Hiff.
    assert (VRef x ∈ [VRef x]) as Hin by left. apply Hiff in Hin. congruence.
Qed.

(** t.Q = l stores the caller's list itself. *)
Lemma setter_keeps_list f h t q p v l ys :
  Consistent S h → K h t q = Some (PManyOne p) → slot h t (Priv q) = Some v →
  h_lists h !! l = Some (map VRef ys) → loose h l →
  (∀ y, y ∈ ys → K h y p = Some (POneMany q)) →
  ∃ h', setattr S (Datatypes.S (Datatypes.S (Datatypes.S f))) (VRef t) q (VList l) h = (inl tt, h') ∧
    slot h' t (Priv q) = Some (VList l).
Proof.
  intros HC Hk Hs Hl Hlo Hys.
  destruct (set_many_one_effect S f h t q p v l ys) as (h' & E & (Hwf' & Hsc & _) & HS); [done..|].
  exists h'. split; [done|]. remember (Datatypes.S (Datatypes.S f)) as f2. cbn [setattr] in E.
  rewrite obj_prop_pkind, Hk in E.
  apply bind_inv in E as (cur & h1 & _ & E). apply bind_inv in E as (xs & h2 & _ & E).
  apply bind_inv in E as ([] & h3 & _ & E). apply bind_inv in E as (zs & h4 & _ & E).
  apply bind_inv in E as ([] & h5 & _ & E). unfold write_key in E.
  destruct (h_objs h5 !! t) eqn:Ho; [|done]. injection E as <-. apply slot_hset. unfold cls_of. by rewrite Ho.
Qed.

(** x.P = v with a value that has no _q: the error comes after x has left its
    owner and after x.P has been set. *)
Lemma set_bad f h x p q v :
  Consistent S h → K h x p = Some (POneMany q) → has_slot h x p →
  v ≠ VNone → is_vlist v = false → (∀ t, v = VRef t → (t, q) ≠ (x, p) ∧ slot h t (Priv q) = None) →
  ∃ h', setattr S (Datatypes.S f) (VRef x) p v h = (inr AttributeError, h') ∧ same_classes h h' ∧
    view h' x (Priv p) = Some (OV v) ∧
    (∀ u zs, view h x (Priv p) = Some (OV (VRef u)) → view h u (Priv q) = Some (OL zs) →
       view h' u (Priv q) = Some (OL (filter (λ y, y ≠ VRef x) zs))) ∧
    (∀ o k, (o, k) ≠ (x, Priv p) → (k = Priv q → view h x (Priv p) ≠ Some (OV (VRef o))) → view h' o k = view h o k).
Proof.
  intros HC Hk Hs Hn Hvl Hv.
  destruct (slotful_view h x p) as [w Hw]; [apply HC|done|].
  destruct Hs as [s Hs]. assert (is_Some (cls_of h x)) as Hcx by (by eapply slot_cls).
  (* the value without _q *)
  assert (∀ h1, is_Some (cls_of h1 x) → (∀ t, v = VRef t → slot h1 t (Priv q) = None) →
     (write_key (VRef x) (Priv p) v ;;;
      let* now := read_key (VRef x) (Priv p) in
      if decide (now = VNone) then ret tt else
        let* lst := read_key now (Priv q) in
        let* b := contains (VRef x) lst in
        if b : bool then ret tt else append lst (VRef x)) h1 = (inr AttributeError, hset x (Priv p) v h1)) as Hrest.
  { intros h1 Hc1 Hv1. erewrite bind_inl by (by apply write_key_ok).
    erewrite bind_inl; [|apply read_key_ok; by apply slot_hset]. rewrite decide_False by done.
    apply bind_inr. destruct v; try done. unfold read_key. rewrite slot_hset_ne; [by rewrite Hv1|].
    intros [= -> ->]. by destruct (Hv o eq_refl). }
  destruct (lk_single _ _ (proj2 HC) _ _ _ _ Hk Hw) as [->|(u & zs & -> & He & Hu & Hin)].
  - apply view_OV in Hw as Hs'. rewrite Hs in Hs'. injection Hs' as ->.
    exists (hset x (Priv p) v h). split_and!.
    + cbn [setattr]. rewrite obj_prop_pkind, Hk. erewrite bind_inl by (by apply read_key_ok).
      erewrite bind_inl; [|by rewrite decide_True]. apply Hrest; [done|]. intros t Ht. by apply Hv.
    + apply same_classes_hset.
    + rewrite view_hset by done. apply upd_eq.
    + congruence.
    + intros o k Hne _. rewrite view_hset by done. by rewrite upd_ne.
  - apply view_OV in Hw as Hs'. rewrite Hs in Hs'. injection Hs' as ->.
    destruct (view_OL _ _ _ _ Hu) as (l & Hsu & Hl). pose proof He as (_ & p' & Hku & _).
    assert (is_Some (cls_of h u)) as Hcu by (by eapply slot_cls).
    assert ((u, Priv q) ≠ (x, Priv p)) as Hne by (intros [= -> ->]; congruence).
    set (h1 := hnew u (Priv q) (without (VRef x) zs) h).
    assert (Frame h h1) as HF1 by (apply Frame_hnew; [apply HC|done]).
    assert (∀ o k, view h1 o k = upd (view h) u (Priv q) (OL (without (VRef x) zs)) o k) as HV1.
    { intros. apply view_hnew; [apply HC|done]. }
    assert (is_Some (cls_of h1 x)) as Hc1 by (by rewrite (Frame_cls h)).
    exists (hset x (Priv p) v h1). split_and!.
    + cbn [setattr]. rewrite obj_prop_pkind, Hk. erewrite bind_inl by (by apply read_key_ok).
      erewrite bind_inl; [apply Hrest; [done|]|].
      * intros t ->. destruct (Hv t eq_refl) as [? Hnone]. unfold h1, hnew. rewrite slot_hset_ne, slot_lset; [done|].
        intros [= <-]. congruence.
      * rewrite decide_False by done. erewrite bind_inl by (by eapply getattr_single).
        erewrite bind_inl by (by eapply getattr_coll).
        erewrite (bind_inl (iter_val (VList l))); [|unfold iter_val; by rewrite Hl].
        erewrite bind_inl; [|done]. apply write_key_ok. by rewrite cls_lset.
    + eapply same_classes_trans; [apply HF1|apply same_classes_hset].
    + rewrite view_hset by done. apply upd_eq.
    + intros u' zs' Hu1 Hu2. assert (u' = u) as -> by congruence. rewrite Hu in Hu2. injection Hu2 as <-.
      rewrite view_hset, upd_ne, HV1, upd_eq by done. done.
    + intros o k Hn1 Hn2. rewrite view_hset, upd_ne by done. rewrite HV1, upd_ne; [done|].
      intros [= -> ->]. by apply Hn2.
Qed.

(** Collections whose inverse is a view of another property (the two
    LineSegments of CIM15): the setter writes an attribute nobody reads. *)
Lemma set_coll_alias f h t q p' p c l ys v :
  Wf h → K h t q = Some (PManyOne p') → slot h t (Priv q) = Some v → view h t (Priv q) = Some (OL []) →
  h_lists h !! l = Some (map VRef ys) → loose h l → p' ≠ p →
  (∀ y, y ∈ ys → K h y p' = Some (PAlias p c)) → (t, q) ≠ (t, p) →
  ∃ h', setattr S (Datatypes.S f) (VRef t) q (VList l) h = (inl tt, h') ∧ same_classes h h' ∧
    view h' t (Priv q) = Some (OL (map VRef ys)) ∧
    (∀ y, y ∈ ys → fst (getattr S (VRef y) p' h') = fst (getattr S (VRef y) p' h)) ∧
    (∀ o, view h' o (Priv p) = view h o (Priv p)).
Proof.
  intros Hwf Hk Hs Hv Hl Hlo Hpp Hys Htq.
  destruct (view_OL _ _ _ _ Hv) as (l0 & Hs0 & Hl0).
  assert (is_Some (cls_of h t)) as Hct by (by eapply slot_cls).
  destruct (assign_all p' t ys h) as (h1 & E1 & HF1 & HV1); [done| |].
  { intros y Hy%Hys. unfold pkind in Hy. destruct (cls_of h y); [eauto|done]. }
  destruct (proj2 (proj2 HF1) l _ Hl Hlo) as [Hl1 Hlo1].
  assert (is_Some (cls_of h1 t)) as Hct1 by (by rewrite (Frame_cls h)).
  set (h2 := hset t (Priv q) (VList l) h1).
  assert (∀ o k, view h2 o k = upd (view h1) t (Priv q) (OL (map VRef ys)) o k) as HV2.
  { intros. by eapply view_hset_list. }
  assert (same_classes h h2) as Hsc.
  { eapply same_classes_trans; [apply HF1|apply same_classes_hset]. }
  assert (∀ o, view h2 o (Priv p) = view h o (Priv p)) as Hp.
  { intros o. rewrite HV2, upd_ne; [|congruence]. rewrite HV1, decide_False; [done|].
    intros [_ [= ?]]. congruence. }
  exists h2. split_and!; [|done|by rewrite HV2, upd_eq| |done].
  - cbn [setattr]. rewrite obj_prop_pkind, Hk. erewrite bind_inl by (by apply read_key_ok).
    assert (v = VList l0) as -> by congruence.
    erewrite (bind_inl (iter_val (VList l0))); [|unfold iter_val; by rewrite Hl0].
    erewrite bind_inl; [|done].
    erewrite (bind_inl (iter_val (VList l))); [|unfold iter_val; by rewrite Hl].
    erewrite bind_inl by exact E1. by apply write_key_ok.
  - intros y Hy. unfold getattr. rewrite (obj_prop_pkind _ h2), (obj_prop_pkind _ h), (pkind_same _ h h2), (Hys _ Hy) by done.
    unfold bind, read_key.
    assert (slot h2 y (Priv p) = slot h y (Priv p)) as ->.
    { unfold h2. rewrite slot_hset_ne by congruence. clear -E1 Hpp. revert h E1.
      induction ys as [|z ys IH]; intros h E1; [by injection E1 as ->|]. cbn [map for_each] in E1.
      apply bind_inv in E1 as ([] & h3 & Ea & Eb). rewrite (IH _ Eb).
      unfold write_key in Ea. destruct (h_objs h !! z); [|done]. injection Ea as <-.
      rewrite slot_hset_ne; [done|congruence]. }
    destruct (slot h y (Priv p)) as [w|]; [|done].
    assert (val_cls h2 w = val_cls h w) as -> by (destruct w; simpl; auto).
    by destruct (decide _).
Qed.

(** Equipment.OperationalLimitSet. *)
Lemma add_dbl f h e p q s ys :
  Wf h → K h e p = Some (PManyOneDbl q) → K h s q = None → key_of q = Pub q → is_Some (cls_of h s) →
  view h e (Priv p) = Some (OL ys) →
  ∃ h', add S (Datatypes.S f) (VRef e) p [VRef s] h = (inl tt, h') ∧ same_classes h h' ∧
    view h' e (Priv p) = Some (OL (ys ++ [VRef s])) ∧ view h' s (Pub q) = Some (OV (VRef e)) ∧
    (∀ o k, (o, k) ≠ (e, Priv p) → (o, k) ≠ (s, Pub q) → view h' o k = view h o k).
Proof.
  intros Hwf Hk Hks Hq Hcs Hv. destruct (view_OL _ _ _ _ Hv) as (l & Hs & Hl).
  set (h1 := hset s (Pub q) (VRef e) h).
  assert (slot h1 e (Priv p) = Some (VList l)) as Hs1 by (unfold h1; by rewrite slot_hset_ne).
  assert (∀ o k, view (lset l (ys ++ [VRef s]) h1) o k = upd (view h1) e (Priv p) (OL (ys ++ [VRef s])) o k) as HV.
  { intros. eapply view_lset; [by apply wf_hset|exact Hs1|]. unfold h1. by rewrite lists_hset. }
  exists (lset l (ys ++ [VRef s]) h1). split_and!.
  - unfold add. rewrite obj_prop_pkind, Hk. cbn [for_each]. erewrite bind_inl; [done|].
    erewrite bind_inl; [|rewrite set_plain by done; rewrite Hq; done].
    erewrite bind_inl; cycle 1.
    { unfold getattr. rewrite obj_prop_pkind, pkind_hset, Hk. by apply read_key_ok. }
    unfold append. by rewrite lists_hset, Hl.
  - intros o. rewrite cls_lset. apply cls_hset.
  - by rewrite HV, upd_eq.
  - rewrite HV, upd_ne by done. unfold h1. by rewrite view_hset, upd_eq by done.
  - intros o k H1 H2. rewrite HV, upd_ne by done. unfold h1. rewrite view_hset by done. by rewrite upd_ne.
Qed.
Lemma remove_dbl f h e p q s ys :
  Wf h → K h e p = Some (PManyOneDbl q) → K h s q = None → key_of q = Pub q → is_Some (cls_of h s) →
  view h e (Priv p) = Some (OL ys) →
  ∃ h', remove S (Datatypes.S f) (VRef e) p [VRef s] h =
      (match remove_first (VRef s) ys with Some _ => inl tt | None => inr ValueError end, h') ∧ same_classes h h' ∧
    view h' e (Priv p) = Some (OL (default ys (remove_first (VRef s) ys))) ∧ view h' s (Pub q) = Some (OV VNone) ∧
    (∀ o k, (o, k) ≠ (e, Priv p) → (o, k) ≠ (s, Pub q) → view h' o k = view h o k).
Proof.
  intros Hwf Hk Hks Hq Hcs Hv. destruct (view_OL _ _ _ _ Hv) as (l & Hs & Hl).
  set (h1 := hset s (Pub q) VNone h).
  assert (slot h1 e (Priv p) = Some (VList l)) as Hs1 by (unfold h1; by rewrite slot_hset_ne).
  assert (Wf h1) as Hwf1 by (by apply wf_hset).
  assert (∀ o k, view h1 o k = upd (view h) s (Pub q) (OV VNone) o k) as HV1 by (intros; by apply view_hset).
  assert (∀ zs o k, view (lset l zs h1) o k = upd (view h1) e (Priv p) (OL zs) o k) as HV.
  { intros. eapply view_lset; [done|exact Hs1|]. unfold h1. by rewrite lists_hset. }
  assert (setattr S (Datatypes.S f) (VRef s) q VNone h = (inl tt, h1)) as Eset.
  { rewrite set_plain by done. by rewrite Hq. }
  assert (getattr S (VRef e) p h1 = (inl (VList l), h1)) as Eget.
  { unfold getattr. rewrite obj_prop_pkind. unfold h1 at 1. rewrite pkind_hset, Hk. by apply read_key_ok. }
  destruct (remove_first (VRef s) ys) as [zs|] eqn:Er.
  - exists (lset l zs h1). split_and!.
    + unfold remove. rewrite obj_prop_pkind, Hk. cbn [for_each]. erewrite bind_inl; [done|].
      erewrite bind_inl by exact Eset. erewrite bind_inl by exact Eget.
      unfold list_remove. unfold h1 at 1. by rewrite lists_hset, Hl, Er.
    + intros o. rewrite cls_lset. apply cls_hset.
    + by rewrite HV, upd_eq.
    + by rewrite HV, upd_ne, HV1, upd_eq by done.
    + intros o k H1 H2. by rewrite HV, upd_ne, HV1, upd_ne by done.
  - exists h1. split_and!.
    + unfold remove. rewrite obj_prop_pkind, Hk. cbn [for_each]. apply bind_inr.
      erewrite bind_inl by exact Eset. erewrite bind_inl by exact Eget.
      unfold list_remove. unfold h1 at 1. by rewrite lists_hset, Hl, Er.
    + intros o. apply cls_hset.
    + by rewrite HV1, upd_ne by done.
    + by rewrite HV1, upd_eq.
    + intros o k H1 H2. by rewrite HV1, upd_ne by done.
Qed.
End extra.
