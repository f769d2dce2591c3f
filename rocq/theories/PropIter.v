(** Assigning a property to itself, lists held by a caller, and loops over
    collections. *)
From Coq Require Import String.
From stdpp Require Import prelude gmap.
From Verif Require Import PyStr PyHeap Schema Assoc AssocSpec HeapFacts LinksFacts AssocFacts AddRemoveFacts
  CtorFacts History HistorySpec HistoryFacts GraphCheck AdmCheck AssocExtra Names TabCIM14 TabCIM15 TabProfiles Tables
  TableSpec TableFacts ImpedanceFacts Demo PropAssoc FrameFacts LiveFacts.

Ltac step1 E := rewrite (bind_inl _ _ _ _ _ E).

(** *** C76 *)
(** [x.P = x.P] where P is the single end of a one-to-many association: x moves
    to the end of its owner's collection. *)
Theorem C76_single T f h x p q t ys :
  Consistent T h → pkind T h x p = Some (POneMany q) →
  view h x (Priv p) = Some (OV (VRef t)) → view h t (Priv q) = Some (OL ys) →
  ∃ h', (let* w := getattr T (VRef x) p in setattr T (S f) (VRef x) p w) h = (inl tt, h') ∧ same_classes h h' ∧
    view h' t (Priv q) = Some (OL (filter (λ y, y ≠ VRef x) ys ++ [VRef x])) ∧
    ∀ o k, (o, k) ≠ (t, Priv q) → view h' o k = view h o k.
Proof.
  intros HC Hk Hv Hy. pose proof (view_OV _ _ _ _ Hv) as Hs.
  destruct (lk_single _ _ (proj2 HC) _ _ _ _ Hk Hv) as [?|(t' & ys' & [= <-] & He & Hy' & Hin)]; [done|].
  destruct (C01_set_single T f h x p q (VRef t)) as (h' & E & Hsc & HS & _); [done|done|by eexists|right; by eauto|].
  exists h'. split.
  { assert (getattr T (VRef x) p h = (inl (VRef t), h)) as Eg.
    { unfold getattr. rewrite obj_prop_pkind, Hk. by apply read_key_ok. }
    by rewrite (bind_inl _ _ _ _ _ Eg). }
  split; [done|]. split; [by apply (ss_new _ _ _ _ _ _ HS)|]. intros o k Hne.
  destruct (decide ((o, k) = (x, Priv p))) as [[= -> ->]|Hne2]; [by rewrite (ss_self _ _ _ _ _ _ HS), Hv|].
  apply (ss_frame _ _ _ _ _ _ HS); [done|]. intros ->. rewrite Hv. split; congruence.
Qed.
Print Assumptions C76_single.
(** One-to-one: nothing changes. *)
Theorem C76_pair T f h x p q t :
  Consistent T h → p ≠ q → pkind T h x p = Some (POneOne q) → view h x (Priv p) = Some (OV (VRef t)) →
  ∃ h', (let* w := getattr T (VRef x) p in setattr T (S (S f)) (VRef x) p w) h = (inl tt, h') ∧ same_classes h h' ∧
    ∀ o k, view h' o k = view h o k.
Proof.
  intros HC Hpq Hk Hv. pose proof (view_OV _ _ _ _ Hv) as Hs.
  destruct (lk_one_one _ _ (proj2 HC) _ _ _ _ Hk Hv) as [?|(t' & [= <-] & He & Hy)]; [done|].
  destruct (C02_set_pair T f h x p q (VRef t)) as (h' & E & Hsc & HS & _); [done|done|done|by eexists| |].
  { right. exists t. split_and!; [done..|]. apply view_OV in Hy. by eexists. }
  exists h'. split.
  { assert (getattr T (VRef x) p h = (inl (VRef t), h)) as Eg.
    { unfold getattr. rewrite obj_prop_pkind, Hk. by apply read_key_ok. }
    by rewrite (bind_inl _ _ _ _ _ Eg). }
  split; [done|]. intros o k.
  destruct (decide ((o, k) = (x, Priv p))) as [[= -> ->]|Hne2]; [by rewrite (sp_self _ _ _ _ _ _ HS), Hv|].
  destruct (decide ((o, k) = (t, Priv q))) as [[= -> ->]|Hne3]; [by rewrite (sp_new _ _ _ _ _ _ HS t), Hy|].
  apply (sp_frame _ _ _ _ _ _ HS); [done| |].
  - intros ->. rewrite Hv. split; congruence.
  - intros -> y [= <-]. rewrite Hy. congruence.
Qed.
Print Assumptions C76_pair.
(** [t.Q = t.Q] for the collection of a one-to-many association: nothing
    changes, although every member is detached and attached again. *)
Theorem C76_collection T f h t q p xs :
  Consistent T h → pkind T h t q = Some (PManyOne p) → view h t (Priv q) = Some (OL xs) →
  (∀ x, VRef x ∈ xs → pkind T h x p = Some (POneMany q)) →
  ∃ h', (let* w := getattr T (VRef t) q in setattr T (S (S (S f))) (VRef t) q w) h = (inl tt, h') ∧ same_classes h h' ∧
    ∀ o k, view h' o k = view h o k.
Proof.
  intros HC Hk Hv Hm. destruct (view_OL _ _ _ _ Hv) as (l & Hs & Hl). pose proof HC as [Hwf HL].
  destruct (lk_coll _ _ HL _ _ _ _ Hk Hv) as (? & [= <-] & Hnd & Hmem).
  assert (∃ ys, xs = map VRef ys) as [ys ->].
  { clear -Hmem. induction xs as [|e xs IH]; [by exists []|]. destruct IH as [ys ->]; [intros; apply Hmem; by right|].
    destruct (Hmem e) as (x & _ & -> & _); [left|]. by exists (x :: ys). }
  assert (∀ y, y ∈ ys → pkind T h y p = Some (POneMany q) ∧ view h y (Priv p) = Some (OV (VRef t)) ∧ ends_one_many (pkind T h) y p t q) as Hys.
  { intros y Hy. assert (VRef y ∈ map VRef ys) as Hin by (apply elem_of_list_fmap; by exists y).
    pose proof (Hm y Hin) as Hky. split; [done|]. destruct (Hmem _ Hin) as (z & pz & [= <-] & He & Hz).
    assert (pz = p) as ->; [|done]. destruct He as (_ & p' & Hk' & [[<- _]|[c Hc]]); congruence. }
  destruct (detach_all T f t q p (map VRef ys) h HC Hk Hv) as (h1 & E1 & HF1 & HC1 & Hv1 & Hold1 & Hfr1).
  pose proof (Frame_wf _ _ HF1) as Hwf1.
  assert (h_lists h1 !! l = Some (map VRef ys)) as Hl1.
  { pose proof (kept_for_each (map VRef ys) (λ x, setattr T (S (S f)) x p VNone) (λ x, kept_set_None T _ x p) h l _ Hl) as Hkp.
    by rewrite E1 in Hkp. }
  assert (∀ y, y ∈ ys → is_Some (cls_of h y)) as Hcl.
  { intros y Hy. destruct (Hys y Hy) as (Hky & _). unfold pkind in Hky. destruct (cls_of h y); [by eauto|done]. }
  destruct (assign_all p t ys h1 Hwf1) as (h2 & E2 & HF2 & HV2).
  { intros y Hy. rewrite (Frame_cls h) by done. by apply Hcl. }
  assert (h_lists h2 !! l = Some (map VRef ys)) as Hl2.
  { pose proof (kept_for_each (map VRef ys) (λ y, write_key y (Priv p) (VRef t)) (λ y, kept_write y _ _) h1 l _ Hl1) as Hkp.
    by rewrite E2 in Hkp. }
  assert (is_Some (cls_of h t)) as Hct by (by eapply slot_cls).
  assert (is_Some (cls_of h2 t)) as Hct2 by (by rewrite (Frame_cls h1), (Frame_cls h)).
  exists (hset t (Priv q) (VList l) h2). split.
  { assert (getattr T (VRef t) q h = (inl (VList l), h)) as Eg.
    { unfold getattr. rewrite obj_prop_pkind, Hk. by apply read_key_ok. }
    rewrite (bind_inl _ _ _ _ _ Eg). remember (S (S f)) as f2. cbn [setattr]. rewrite obj_prop_pkind, Hk.
    step1 (read_key_ok h t (Priv q) _ Hs).
    erewrite (bind_inl (iter_val (VList l))); [|unfold iter_val; by rewrite Hl].
    step1 E1. erewrite (bind_inl (iter_val (VList l))); [|unfold iter_val; by rewrite Hl1].
    step1 E2. by rewrite write_key_ok. }
  split.
  { intros o. by rewrite cls_hset, (Frame_cls h1), (Frame_cls h). }
  intros o k. rewrite (view_hset_list h2 t (Priv q) l (map VRef ys)) by done.
  destruct (decide ((o, k) = (t, Priv q))) as [[= -> ->]|Hne]; [by rewrite upd_eq|]. rewrite upd_ne by congruence.
  rewrite HV2. case_decide as Hd; [destruct Hd as [Hy ->]; by destruct (Hys o Hy) as (_ & -> & _)|].
  apply Hfr1; [done|]. intros pz -> Hin He. apply Hd.
  apply elem_of_list_fmap in Hin as (y & [= <-] & Hy). split; [done|]. f_equal.
  destruct (Hys o Hy) as (_ & _ & He'). symmetry. by eapply ends_fun.
Qed.
Print Assumptions C76_collection.
(** Terminal 0 is the first of node 2's terminals, then the last. *)
Theorem C76_unchanged_refuted :
  let h' := snd ((let* w := getattr cim14 (VRef 0) n_ConnectivityNode in setattr cim14 20 (VRef 0) n_ConnectivityNode w) g14) in
  Consistent cim14 g14 ∧
  view g14 2 (Priv n_Terminals) = Some (OL [VRef 0; VRef 1]) ∧ view h' 2 (Priv n_Terminals) = Some (OL [VRef 1; VRef 0]).
Proof. split; [exact g14_Consistent|]. split; compute_now. Qed.
Print Assumptions C76_unchanged_refuted.
Example C76_example :
  (pkind cim14 g14 0 n_ConnectivityNode = Some (POneMany n_Terminals) ∧ view g14 0 (Priv n_ConnectivityNode) = Some (OV (VRef 2))) ∧
  (pkind cim14 g14 0 n_SvPowerFlow = Some (POneOne n_Terminal) ∧ view g14 0 (Priv n_SvPowerFlow) = Some (OV (VRef 4))) ∧
  (pkind cim14 g14 2 n_Terminals = Some (PManyOne n_ConnectivityNode) ∧
   view g14 2 (Priv n_Terminals) = Some (OL [VRef 0; VRef 1]) ∧
   ∀ x, VRef x ∈ [VRef 0; VRef 1] → pkind cim14 g14 x n_ConnectivityNode = Some (POneMany n_Terminals)).
Proof.
  split; [split; compute_now|]. split; [split; compute_now|]. split; [compute_now|]. split; [compute_now|].
  intros x Hx. rewrite !elem_of_cons, elem_of_nil in Hx.
  assert (x = 0 ∨ x = 1) as [->| ->] by (destruct Hx as [[= ->]|[[= ->]|[]]]; auto); compute_now.
Qed.

(** *** C77 *)
(** The second half of the setter of a single end
    (CIM14/IEC61970/Core/Terminal.py:106-109). *)
Notation attach x p q w := (
  write_key (VRef x) (Priv p) w ;;;
  let* now := read_key (VRef x) (Priv p) in
  if decide (now = VNone) then ret tt else
    let* lst := read_key now (Priv q) in
    let* b := contains (VRef x) lst in
    if b : bool then ret tt else append lst (VRef x)).
Lemma set_from T f h x p q w u pu l xs :
  pkind T h x p = Some (POneMany q) → slot h x (Priv p) = Some (VRef u) → pkind T h u q = Some (PManyOne pu) →
  slot h u (Priv q) = Some (VList l) → h_lists h !! l = Some xs →
  setattr T (S f) (VRef x) p w h =
    attach x p q w (hset u (Priv q) (VList (fresh_list h)) (lset (fresh_list h) (without (VRef x) xs) h)).
Proof.
  intros Hk Hs Hku Hsu Hl. cbn [setattr]. rewrite obj_prop_pkind, Hk. step1 (read_key_ok h x (Priv p) _ Hs).
  rewrite decide_False by done. erewrite bind_inl; [done|].
  step1 (getattr_single T h x p q (VRef u) Hk Hs). step1 (getattr_coll T h u q pu (VList l) Hku Hsu).
  erewrite (bind_inl (iter_val (VList l))); [|unfold iter_val; by rewrite Hl].
  erewrite (bind_inl (new_list _)); [|done]. cbv beta. apply write_key_ok. rewrite cls_lset. by eapply slot_cls.
Qed.
Lemma set_none T f h x p q w :
  pkind T h x p = Some (POneMany q) → slot h x (Priv p) = Some VNone → setattr T (S f) (VRef x) p w h = attach x p q w h.
Proof.
  intros Hk Hs. cbn [setattr]. rewrite obj_prop_pkind, Hk. step1 (read_key_ok h x (Priv p) _ Hs).
  rewrite decide_True by done. done.
Qed.
(** [attach] does not touch a list that no attribute holds, nor any attribute but
    its own. *)
Lemma attach_loose x p q w h l xs : (∀ l, w ≠ VList l) → loose h l → h_lists h !! l = Some xs →
  h_lists (snd (attach x p q w h)) !! l = Some xs ∧
  ∀ o k, (o, k) ≠ (x, Priv p) → slot (snd (attach x p q w h)) o k = slot h o k.
Proof.
  intros Hw Hlo Hl. destruct (h_objs h !! x) as [ob|] eqn:E.
  2: { assert (write_key (VRef x) (Priv p) w h = (inr Unmodelled, h)) as Ew by (unfold write_key; by rewrite E).
       rewrite (bind_inr _ _ _ _ _ Ew). done. }
  assert (is_Some (cls_of h x)) as Hc by (unfold cls_of; rewrite E; by eexists).
  step1 (write_key_ok h x (Priv p) w Hc). set (h1 := hset x (Priv p) w h).
  assert (∀ o k, (o, k) ≠ (x, Priv p) → slot h1 o k = slot h o k) as Hs1 by (intros; unfold h1; rewrite slot_hset_ne; congruence).
  assert (slot h1 x (Priv p) = Some w) as Hx by (by apply slot_hset).
  assert (loose h1 l) as Hlo1.
  { intros o k. destruct (decide ((o, k) = (x, Priv p))) as [[= -> ->]|Hne]; [rewrite Hx; naive_solver|rewrite Hs1 by done; apply Hlo]. }
  assert (h_lists h1 !! l = Some xs) as Hl1 by done.
  step1 (read_key_ok h1 x (Priv p) w Hx). case_decide; [done|].
  destruct (append_new_other (VRef x) q w h1 l xs Hlo1 Hl1) as [_ Hl2]. split; [done|].
  intros o k Hne. rewrite <- Hs1 by done. apply slot_objs.
  unfold bind. destruct w as [| | | | |t|]; try done. cbn [read_key]. destruct (slot h1 t (Priv q)) as [v|]; [|done].
  unfold contains. destruct v as [| | | | | |l']; try done. destruct (h_lists h1 !! l') as [ys|] eqn:El; [|done].
  destruct (bool_decide _); [done|]. unfold append. by rewrite El.
Qed.
Lemma attach_joins x p q t h l ys : is_Some (cls_of h x) → (t, Priv q) ≠ (x, Priv p) →
  slot h t (Priv q) = Some (VList l) → h_lists h !! l = Some ys → VRef x ∉ ys →
  attach x p q (VRef t) h = (inl tt, lset l (ys ++ [VRef x]) (hset x (Priv p) (VRef t) h)).
Proof.
  intros Hc Hne Hs Hl Hn. erewrite bind_inl; [|by apply write_key_ok].
  erewrite bind_inl; [|apply read_key_ok; by apply slot_hset]. rewrite decide_False by done.
  erewrite bind_inl; [|apply read_key_ok; rewrite slot_hset_ne; [done|congruence]].
  erewrite (bind_inl (contains _ _)); [|unfold contains; by rewrite lists_hset, Hl]. rewrite bool_decide_eq_false_2 by done.
  unfold append. by rewrite lists_hset, Hl.
Qed.

Lemma getattr_held T h t q k w : pkind T h t q = Some k → (∀ a b, k ≠ PAlias a b) → getattr T (VRef t) q h = (inl w, h) →
  slot h t (Priv q) = Some w.
Proof.
  intros Hk Ha. unfold getattr. rewrite obj_prop_pkind, Hk. unfold read_key.
  destruct k; try (destruct (slot h t (Priv q)); intros E; [by injection E as ->|done]). by destruct (Ha target c).
Qed.

Lemma getattr_list T h t q k xs : pkind T h t q = Some k → (∀ a b, k ≠ PAlias a b) → view h t (Priv q) = Some (OL xs) →
  ∃ l, getattr T (VRef t) q h = (inl (VList l), h) ∧ h_lists h !! l = Some xs.
Proof.
  intros Hk Ha Hv. destruct (view_OL _ _ _ _ Hv) as (l & Hs & Hl). exists l. split; [|done].
  unfold getattr. rewrite obj_prop_pkind, Hk. destruct k; try by apply read_key_ok. by destruct (Ha target c).
Qed.
Lemma not_alias_coll q (a b : name) : PManyOne q ≠ PAlias a b.
Proof. done. Qed.
Lemma not_alias_many q (a b : name) : PManyMany q ≠ PAlias a b.
Proof. done. Qed.

(** A list obtained from t.Q before x leaves t: it keeps x, and t has another
    list. *)
Theorem C77_left T f h x p q w t l xs :
  Consistent T h → pkind T h x p = Some (POneMany q) → view h x (Priv p) = Some (OV (VRef t)) →
  getattr T (VRef t) q h = (inl (VList l), h) → h_lists h !! l = Some xs → fits_one_many T h x p q w →
  ∃ h' l', setattr T (S f) (VRef x) p w h = (inl tt, h') ∧
    VRef x ∈ xs ∧ h_lists h' !! l = Some xs ∧ getattr T (VRef t) q h' = (inl (VList l'), h') ∧ l' ≠ l.
Proof.
  intros HC Hk Hv Hg Hl Hw. pose proof HC as [Hwf HL]. pose proof (view_OV _ _ _ _ Hv) as Hs.
  destruct (lk_single _ _ HL _ _ _ _ Hk Hv) as [?|(t' & ys & [= <-] & He & Hvt & Hin)]; [done|].
  pose proof He as (_ & pt & Hkt & _).
  assert (slot h t (Priv q) = Some (VList l)) as Hst.
  { eapply getattr_held; [exact Hkt|done|exact Hg]. }
  assert (ys = xs) as ->. { rewrite (view_list _ _ _ _ _ Hst Hl) in Hvt. by injection Hvt. }
  destruct (C01_set_single T f h x p q w) as (h' & E & Hsc & HS & HC'); [done|done|by eexists|done|].
  assert (∀ l, w ≠ VList l) as Hwl by (intros l' ->; destruct Hw as [?|(? & ? & ? & _)]; done).
  set (h1 := hset t (Priv q) (VList (fresh_list h)) (lset (fresh_list h) (without (VRef x) xs) h)).
  assert (fresh_list h ≠ l) as Hne by (intros <-; by rewrite fresh_list_None in Hl).
  assert (is_Some (cls_of h t)) as Hct by (by eapply slot_cls).
  assert (slot h1 t (Priv q) = Some (VList (fresh_list h))) as Ht1 by (unfold h1; by apply slot_hset).
  assert (loose h1 l) as Hlo.
  { intros o k Ho. destruct (decide ((t, Priv q) = (o, k))) as [[= <- <-]|Hn].
    - rewrite Ht1 in Ho. by injection Ho.
    - unfold h1 in Ho. rewrite slot_hset_ne, slot_lset in Ho by done. destruct (wf_unshared _ Hwf _ _ _ _ _ Hst Ho). congruence. }
  assert (h_lists h1 !! l = Some xs) as Hl1 by (unfold h1; by rewrite lists_hset, lists_lset_ne).
  pose proof (set_from T f h x p q w t pt l xs Hk Hs Hkt Hst Hl) as Es. fold h1 in Es. rewrite E in Es.
  destruct (attach_loose x p q w h1 l xs Hwl Hlo Hl1) as [Hl2 Hs2]. rewrite <- Es in Hl2, Hs2. cbn [snd] in Hl2, Hs2.
  exists h', (fresh_list h). split_and!; [done|done|done| |done].
  unfold getattr. rewrite obj_prop_pkind. rewrite (pkind_same _ h) by done. rewrite Hkt. apply read_key_ok.
  rewrite Hs2; [done|]. intros [= -> ->]. congruence.
Qed.
Print Assumptions C77_left.
(** A list obtained from t.Q before x joins t: x is appended to it, and t still
    has it. *)
Theorem C77_joined T f h x p q t l xs :
  Consistent T h → ends_one_many (pkind T h) x p t q → has_slot h x p → view h x (Priv p) ≠ Some (OV (VRef t)) →
  getattr T (VRef t) q h = (inl (VList l), h) → h_lists h !! l = Some xs →
  ∃ h', setattr T (S f) (VRef x) p (VRef t) h = (inl tt, h') ∧
    getattr T (VRef t) q h' = (inl (VList l), h') ∧ h_lists h' !! l = Some (xs ++ [VRef x]).
Proof.
  intros HC He [v Hs] Hv Hg Hl. pose proof HC as [Hwf HL]. pose proof He as (Hk & pt & Hkt & Hr).
  assert (slot h t (Priv q) = Some (VList l)) as Hst.
  { eapply getattr_held; [exact Hkt|done|exact Hg]. }
  assert (view h t (Priv q) = Some (OL xs)) as Hvt by (by eapply view_list).
  assert (VRef x ∉ xs) as Hn.
  { intros Hin. destruct (lk_coll _ _ HL _ _ _ _ Hkt Hvt) as (? & [= <-] & _ & Hm).
    destruct (Hm _ Hin) as (x' & p2 & [= <-] & He2 & Hvx2). rewrite (ends_fun _ _ _ _ _ _ He2 He) in Hvx2. done. }
  assert ((t, Priv q) ≠ (x, Priv p)) as Hne by (intros [= -> ->]; congruence).
  assert (is_Some (cls_of h x)) as Hcx by (by eapply slot_cls).
  assert (∃ z, view h x (Priv p) = Some z) as [z Hz] by (by eapply slot_view).
  assert (∀ h1, is_Some (cls_of h1 x) → slot h1 t (Priv q) = Some (VList l) → h_lists h1 !! l = Some xs → same_classes h h1 →
    setattr T (S f) (VRef x) p (VRef t) h = attach x p q (VRef t) h1 →
    ∃ h', setattr T (S f) (VRef x) p (VRef t) h = (inl tt, h') ∧
      getattr T (VRef t) q h' = (inl (VList l), h') ∧ h_lists h' !! l = Some (xs ++ [VRef x])) as Hgo.
  { intros h1 Hc1 Hs1 Hl1 Hsc E. rewrite (attach_joins x p q t h1 l xs) in E by done. eexists. split; [exact E|]. split.
    - unfold getattr. rewrite obj_prop_pkind. rewrite (pkind_same _ h), Hkt.
      + apply read_key_ok. rewrite slot_lset, slot_hset_ne by congruence. done.
      + intros o. rewrite cls_lset, cls_hset. apply Hsc.
    - by rewrite lists_lset. }
  destruct (lk_single _ _ HL _ _ _ _ Hk Hz) as [->|(u & ys & -> & (_ & pu & Hku & _) & Hvu & _)].
  - apply view_OV in Hz. apply (Hgo h); [done..|]. by apply set_none.
  - pose proof (view_OV _ _ _ _ Hz) as Hsx. destruct (view_OL _ _ _ _ Hvu) as (lu & Hsu & Hlu).
    assert (u ≠ t) as Hut by congruence.
    assert (fresh_list h ≠ l) as Hfl by (intros <-; by rewrite fresh_list_None in Hl).
    apply (Hgo (hset u (Priv q) (VList (fresh_list h)) (lset (fresh_list h) (without (VRef x) ys) h))).
    + by rewrite cls_hset.
    + rewrite slot_hset_ne by congruence. by rewrite slot_lset.
    + by rewrite lists_hset, lists_lset_ne.
    + intros o. by rewrite cls_hset.
    + by eapply set_from.
Qed.
Print Assumptions C77_joined.
(** Many-to-many: the list obtained from x.P is x.P throughout. *)
Theorem C77_many T f h x p q ys l :
  pkind T h x p = Some (PManyMany q) → getattr T (VRef x) p h = (inl (VList l), h) →
  (∀ h', h' = snd (add T f (VRef x) p ys h) ∨ h' = snd (remove T f (VRef x) p ys h) →
    ∀ o r l', slot h o (Priv r) = Some (VList l') → slot h' o (Priv r) = Some (VList l')) ∧
  getattr T (VRef x) p (snd (add T f (VRef x) p ys h)) = (inl (VList l), snd (add T f (VRef x) p ys h)) ∧
  getattr T (VRef x) p (snd (remove T f (VRef x) p ys h)) = (inl (VList l), snd (remove T f (VRef x) p ys h)).
Proof.
  intros Hk Hg. pose proof (static_add_many T f x p q ys h Hk) as Ha. pose proof (static_remove_many T f x p q ys h Hk) as Hr.
  assert (∀ h', h_objs h' = h_objs h → getattr T (VRef x) p h' = (inl (VList l), h')) as Hgo.
  { intros h' E. unfold getattr. rewrite obj_prop_pkind. rewrite (pkind_same _ h).
    - rewrite Hk. apply read_key_ok. rewrite (slot_objs h h') by done. by eapply getattr_held.
    - intros o. unfold cls_of. by rewrite E. }
  split; [|split; by apply Hgo]. intros h' [->| ->] o r l' Hs; by rewrite (slot_objs h).
Qed.
Print Assumptions C77_many.
Example C77_example :
  Consistent cim14 g14 ∧ pkind cim14 g14 0 n_ConnectivityNode = Some (POneMany n_Terminals) ∧
  view g14 0 (Priv n_ConnectivityNode) = Some (OV (VRef 2)) ∧ fits_one_many cim14 g14 0 n_ConnectivityNode n_Terminals (VRef 3) ∧
  (∃ l, getattr cim14 (VRef 2) n_Terminals g14 = (inl (VList l), g14) ∧ h_lists g14 !! l = Some [VRef 0; VRef 1]) ∧
  (∃ l, getattr cim14 (VRef 3) n_Terminals g14 = (inl (VList l), g14) ∧ h_lists g14 !! l = Some []) ∧
  ends_one_many (pkind cim14 g14) 0 n_ConnectivityNode 3 n_Terminals ∧ has_slot g14 0 n_ConnectivityNode ∧
  (pkind cim14 g14 6 n_RemoteUnits = Some (PManyMany n_CommunicationLinks) ∧
   ∃ l, getattr cim14 (VRef 6) n_RemoteUnits g14 = (inl (VList l), g14) ∧ h_lists g14 !! l = Some [VRef 7]).
Proof.
  split; [exact g14_Consistent|]. split; [compute_now|]. split; [compute_now|]. split; [apply fits_om_b_ok; compute_now|].
  split; [apply (getattr_list cim14 g14 2 n_Terminals (PManyOne n_ConnectivityNode)); [compute_now|exact (not_alias_coll _)|compute_now]|].
  split; [apply (getattr_list cim14 g14 3 n_Terminals (PManyOne n_ConnectivityNode)); [compute_now|exact (not_alias_coll _)|compute_now]|].
  split; [apply om_b_ok; compute_now|]. split; [apply some_b_ok; compute_now|]. split; [compute_now|].
  apply (getattr_list cim14 g14 6 n_RemoteUnits (PManyMany n_CommunicationLinks)); [compute_now|exact (not_alias_many _)|compute_now].
Qed.

(** *** C78 *)
(** Every second element, beginning with the second. *)
Fixpoint every_second {A} (xs : list A) : list A :=
  match xs with _ :: y :: r => y :: every_second r | _ => [] end.

Lemma pkind_set T f v p w h t q : pkind T (snd (setattr T f v p w h)) t q = pkind T h t q.
Proof.
  apply (pres_setattr T (λ h', pkind T h' t q = pkind T h t q) (λ _ _, True)); try done.
  intros o k u h' HI _. rewrite <- HI. apply pkind_same. intros o'. by rewrite cls_hset.
Qed.
(** [for x in t.Q: t.removeQ(x)] empties the collection: every turn gives t a new
    list, the loop runs over the old one. *)
Theorem C78_one_many T f n h t q p' l xs :
  Consistent T h → pkind T h t q = Some (PManyOne p') →
  getattr T (VRef t) q h = (inl (VList l), h) → h_lists h !! l = Some xs → length xs ≤ n →
  ∃ h', live_from n l 0 (λ x, remove T (S (S f)) (VRef t) q [x]) h = (inl tt, h') ∧ same_classes h h' ∧ Consistent T h' ∧
    view h' t (Priv q) = Some (OL []) ∧
    (∀ x p, VRef x ∈ xs → ends_one_many (pkind T h) x p t q → view h' x (Priv p) = Some (OV VNone)) ∧
    (∀ o k, (o, k) ≠ (t, Priv q) →
       (∀ p, k = Priv p → VRef o ∈ xs → ¬ ends_one_many (pkind T h) o p t q) → view h' o k = view h o k).
Proof.
  intros HC Hk Hg Hl Hn.
  assert (slot h t (Priv q) = Some (VList l)) as Hst by (eapply getattr_held; [exact Hk|done|exact Hg]).
  assert (∀ x h1, pkind T h1 t q = Some (PManyOne p') →
    remove T (S (S f)) (VRef t) q [x] h1 = for_each [x] (λ x, setattr T (S (S f)) x p' VNone) h1) as Hr.
  { intros x h1 Hk1. unfold remove. by rewrite obj_prop_pkind, Hk1. }
  assert (∀ x h1, for_each [x] (λ x, setattr T (S (S f)) x p' VNone) h1 =
    (fst (setattr T (S (S f)) x p' VNone h1), snd (setattr T (S (S f)) x p' VNone h1))) as H1.
  { intros x h1. cbn [for_each]. unfold bind. by destruct (setattr T (S (S f)) x p' VNone h1) as [[[]|] ?]. }
  assert (live_from n l 0 (λ x, remove T (S (S f)) (VRef t) q [x]) h = for_each xs (λ x, setattr T (S (S f)) x p' VNone) h) as E.
  { rewrite (live_same l _ (λ h', pkind T h' t q = Some (PManyOne p')) xs); [|..|done|done|lia].
    - rewrite drop_0. clear Hg Hl Hn Hst HC. revert h Hk. induction xs as [|x xs IH]; intros h Hk; [done|].
      cbn [for_each]. unfold bind. cbv beta.
 rewrite (Hr x h Hk), H1. pose proof (pkind_set T (S (S f)) x p' VNone h t q) as Hp.
      destruct (setattr T (S (S f)) x p' VNone h) as [[[]|e] h2]; [|done]. cbn [fst snd] in *. apply IH. congruence.
    - intros x h1 _ Hk1 Hl1. rewrite (Hr x h1 Hk1), H1. cbn [snd]. rewrite pkind_set. split; [done|]. by apply kept_set_None. }
  destruct (detach_all T f t q p' xs h HC Hk) as (h' & E' & HF & HC' & Hv & Hm & Hfr); [by eapply view_list|].
  exists h'. rewrite E. split_and!; [done|apply HF|done..].
Qed.
Print Assumptions C78_one_many.

Lemma filter_keep (e : val) (c : list val) : e ∉ c → filter (λ z, z ≠ e) c = c.
Proof.
  induction c as [|z c IH]; intros Hc; [done|]. apply not_elem_of_cons in Hc as [? ?].
  rewrite filter_cons_True by congruence. by rewrite IH.
Qed.
Lemma many_turns T f x p q l : p ≠ q → ∀ n a rest h,
  Consistent T h → MMNoDup (pkind T h) (view h) → pkind T h x p = Some (PManyMany q) → slot h x (Priv p) = Some (VList l) →
  h_lists h !! l = Some (a ++ rest) → length rest ≤ n →
  ∃ h', live_from n l (length a) (λ y, remove T f (VRef x) p [y]) h = (inl tt, h') ∧ same_classes h h' ∧
    h_lists h' !! l = Some (a ++ every_second rest) ∧ slot h' x (Priv p) = Some (VList l) ∧
    (∀ y qs, VRef y ∈ rest → VRef y ∉ every_second rest → view h y (Priv q) = Some (OL qs) →
       view h' y (Priv q) = Some (OL (filter (λ e, e ≠ VRef x) qs))) ∧
    (∀ o k, (o, k) ≠ (x, Priv p) → (k = Priv q → VRef o ∈ rest → VRef o ∈ every_second rest) → view h' o k = view h o k) ∧
    Consistent T h' ∧ MMNoDup (pkind T h') (view h').
Proof.
  intros Hpq n. induction n as [n IH] using lt_wf_ind. intros a rest h HC Hnd Hk Hs Hl Hn.
  destruct rest as [|y rest].
  { exists h. assert (live_from n l (length a) (λ y, remove T f (VRef x) p [y]) h = (inl tt, h)) as ->.
    { destruct n; cbn [live_from]; rewrite Hl, app_nil_r; by rewrite lookup_ge_None_2. }
    split_and!; try done. }
  destruct n as [|n]; [simpl in Hn; lia|].
  assert (view h x (Priv p) = Some (OL (a ++ y :: rest))) as Hv by (by eapply view_list).
  destruct (lk_many_many _ _ (proj2 HC) _ _ _ _ Hk Hv) as (? & [= <-] & Hm).
  destruct (Hm y) as (y' & qs & -> & He & Hvy & Hxq); [set_solver|]. rename y' into y.
  destruct (remove_many_filter T f h x p q y (a ++ VRef y :: rest) qs HC Hnd Hpq He Hv Hvy) as (h1 & E1 & Hsc & Hv1 & Hvy1 & Hfr1 & HC1 & Hnd1);
    [set_solver|].
  pose proof (Hnd _ _ _ _ Hk Hv) as HN. apply NoDup_app in HN as (HNa & HNd & HNr). apply NoDup_cons in HNr as [Hyr HNr].
  assert (VRef y ∉ a) as Hya by (intros Hin; apply (HNd _ Hin); by left).
  assert (filter (λ e, e ≠ VRef y) (a ++ VRef y :: rest) = a ++ rest) as Ef.
  { rewrite filter_app, filter_cons_False by (intros F; by apply F). by rewrite !filter_keep. }
  rewrite Ef in Hv1.
  assert (slot h1 x (Priv p) = Some (VList l)) as Hs1.
  { pose proof (static_remove_many T f x p q [VRef y] h Hk) as Ho. rewrite E1 in Ho. by rewrite (slot_objs h h1). }
  assert (h_lists h1 !! l = Some (a ++ rest)) as Hl1.
  { destruct (view_OL _ _ _ _ Hv1) as (l1 & ? & ?). congruence. }
  assert (live_from (S n) l (length a) (λ y, remove T f (VRef x) p [y]) h =
    live_from n l (S (length a)) (λ y, remove T f (VRef x) p [y]) h1) as Est.
  { cbn [live_from]. rewrite Hl, list_lookup_middle by done. by step1 E1. }
  rewrite Est. clear Est. destruct rest as [|z rest].
  - exists h1. assert (live_from n l (S (length a)) (λ y, remove T f (VRef x) p [y]) h1 = (inl tt, h1)) as ->.
    { destruct n; cbn [live_from]; rewrite Hl1, app_nil_r; by rewrite lookup_ge_None_2 by lia. }
    split; [done|]. split; [done|]. split; [done|]. split; [done|]. split.
    { intros y' qs' [= ->]%elem_of_list_singleton _ Hq. congruence. }
    split; [|done]. intros o k Ho Hok. apply Hfr1; [done|]. intros [= -> ->]. destruct (not_elem_of_nil (VRef y)). apply Hok; [done|by left].
  - destruct (IH n ltac:(lia) (a ++ [z]) rest h1) as (h' & E' & Hsc' & Hl' & Hs' & Hm' & Hfr' & HC' & Hnd'); try done.
    + by rewrite (pkind_same _ h).
    + by rewrite <- app_assoc.
    + simpl in Hn. lia.
    + exists h'. rewrite app_length in E'. cbn [length] in E'. replace (length a + 1) with (S (length a)) in E' by lia.
      assert (VRef y ≠ z ∧ VRef y ∉ rest) as [Hyz Hyr'] by set_solver.
      assert (z ∉ rest) as Hzr by (by apply NoDup_cons in HNr as [? _]).
      assert (∀ e : val, e ∈ every_second rest → e ∈ rest) as Hsub.
      { clear. intros e. revert rest. fix go 1. intros [|u [|v r]]; [by intros []%not_elem_of_nil..|]. cbn [every_second].
        rewrite !elem_of_cons. intros [Hv2|Hin]; [auto|]. right. right. by apply go. }
      split; [done|]. split; [intros o; by rewrite Hsc', Hsc|].
      split; [by rewrite Hl', <- app_assoc|]. split; [done|]. cbn [every_second]. split; [|split; [|done]].
      * intros y2 qs2 Hin Hni Hq. rewrite elem_of_cons in Hni. destruct (decide (y2 = y)) as [->|Hne].
        -- rewrite Hfr'; [congruence|congruence|]. intros _ Hr. done.
        -- assert (VRef y2 ∈ rest) as Hr by (rewrite !elem_of_cons in Hin; naive_solver).
           apply Hm'; [done|naive_solver|]. rewrite Hfr1; [done|congruence|congruence].
      * intros o k Ho Hok. rewrite Hfr'; [apply Hfr1|..]; [done| |done|].
        -- intros [= -> ->]. assert (VRef y ∈ z :: every_second rest) as Hin by (apply Hok; [done|by left]).
           apply elem_of_cons in Hin as [?|?%Hsub]; done.
        -- intros -> Hr. assert (VRef o ∈ z :: every_second rest) as Hin by (apply Hok; [done|by do 2 right]).
           apply elem_of_cons in Hin as [Hoz|?]; [|done]. by rewrite Hoz in Hr.
Qed.
(** [for y in x.P: x.removeP(y)] with many-to-many P leaves every second partner. *)
Theorem C78_many_many T f n h x p q l ps :
  Consistent T h → MMNoDup (pkind T h) (view h) → p ≠ q → pkind T h x p = Some (PManyMany q) →
  getattr T (VRef x) p h = (inl (VList l), h) → h_lists h !! l = Some ps → length ps ≤ n →
  ∃ h', live_from n l 0 (λ y, remove T f (VRef x) p [y]) h = (inl tt, h') ∧ same_classes h h' ∧ Consistent T h' ∧
    view h' x (Priv p) = Some (OL (every_second ps)) ∧
    (∀ y qs, VRef y ∈ ps → VRef y ∉ every_second ps → view h y (Priv q) = Some (OL qs) →
       view h' y (Priv q) = Some (OL (filter (λ e, e ≠ VRef x) qs))) ∧
    (∀ o k, (o, k) ≠ (x, Priv p) → (k = Priv q → VRef o ∈ ps → VRef o ∈ every_second ps) → view h' o k = view h o k).
Proof.
  intros HC Hnd Hpq Hk Hg Hl Hn.
  assert (slot h x (Priv p) = Some (VList l)) as Hs by (eapply getattr_held; [exact Hk|done|exact Hg]).
  destruct (many_turns T f x p q l Hpq n [] ps h HC Hnd Hk Hs Hl Hn) as (h' & E & Hsc & Hl' & Hs' & Hm & Hfr & HC' & _).
  exists h'. split_and!; try done. by eapply view_list.
Qed.
Print Assumptions C78_many_many.
(** [for y in x.P: x.addP(y)] with many-to-many P does not end: after any number
    of turns there is a next one. *)
Theorem C78_endless T f n : ∀ h x p q l ps,
  Consistent T h → p ≠ q → pkind T h x p = Some (PManyMany q) →
  getattr T (VRef x) p h = (inl (VList l), h) → h_lists h !! l = Some ps → ps ≠ [] →
  ∃ h' ps', live_from n l 0 (λ y, add T f (VRef x) p [y]) h = (inr Unmodelled, h') ∧ same_classes h h' ∧
    view h' x (Priv p) = Some (OL ps') ∧ length ps' = length ps + n ∧ (∀ y, y ∈ ps' ↔ y ∈ ps) ∧
    (∀ o k, (o, k) ≠ (x, Priv p) → view h' o k = view h o k).
Proof.
  intros h x p q l ps HC Hpq Hk Hg Hl Hne.
  assert (slot h x (Priv p) = Some (VList l)) as Hs by (eapply getattr_held; [exact Hk|done|exact Hg]).
  assert (∀ y, y ∈ ps → ∃ o lq qs, y = VRef o ∧ slot h o (Priv q) = Some (VList lq) ∧ h_lists h !! lq = Some qs ∧ VRef x ∈ qs ∧ lq ≠ l) as Hm.
  { assert (view h x (Priv p) = Some (OL ps)) as Hv by (by eapply view_list).
    destruct (lk_many_many _ _ (proj2 HC) _ _ _ _ Hk Hv) as (? & [= <-] & Hm). intros y Hy.
    destruct (Hm y Hy) as (o & qs & -> & _ & Hvy & Hin). destruct (view_OL _ _ _ _ Hvy) as (lq & Hsy & Hlq).
    exists o, lq, qs. split_and!; try done. intros ->. destruct (wf_unshared _ (proj1 HC) _ _ _ _ _ Hs Hsy). congruence. }
  assert (∀ n i h1 ps1, h_objs h1 = h_objs h → (∀ l', l' ≠ l → h_lists h1 !! l' = h_lists h !! l') →
    h_lists h1 !! l = Some ps1 → (∀ y, y ∈ ps1 ↔ y ∈ ps) → i < length ps1 →
    ∃ h' ps', live_from n l i (λ y, add T f (VRef x) p [y]) h1 = (inr Unmodelled, h') ∧ h_objs h' = h_objs h ∧
      (∀ l', l' ≠ l → h_lists h' !! l' = h_lists h !! l') ∧ h_lists h' !! l = Some ps' ∧ length ps' = length ps1 + n ∧
      (∀ y, y ∈ ps' ↔ y ∈ ps)) as Hgo.
  { clear n. induction n as [|n IH]; intros i h1 ps1 Ho Ho1 Hl1 Hps Hi; cbn [live_from]; rewrite Hl1;
      destruct (lookup_lt_is_Some_2 ps1 i Hi) as [y Ey]; rewrite Ey.
    { exists h1, ps1. split_and!; (done || lia). }
    destruct (Hm y) as (o & lq & qs & -> & Hsy & Hlq & Hin & Hlne); [apply Hps; by eapply elem_of_list_lookup_2|].
    assert (add T f (VRef x) p [VRef o] h1 = (inl tt, lset l (ps1 ++ [VRef o]) h1)) as E.
    { unfold add. rewrite obj_prop_pkind, (pkind_same _ h), Hk by (intros z; unfold cls_of; by rewrite Ho). cbn [for_each].
      assert (slot h1 o (Priv q) = Some (VList lq)) as Hsy1 by (by rewrite (slot_objs h)).
      assert (slot h1 x (Priv p) = Some (VList l)) as Hs1 by (by rewrite (slot_objs h)).
      erewrite bind_inl; [reflexivity|]. step1 (read_key_ok h1 o (Priv q) _ Hsy1).
      erewrite (bind_inl (contains _ _)); [|unfold contains; by rewrite Ho1, Hlq]. rewrite bool_decide_eq_true_2 by done.
      erewrite (bind_inl (ret tt)); [|done]. step1 (read_key_ok h1 x (Priv p) _ Hs1). unfold append. by rewrite Hl1. }
    step1 E. destruct (IH (S i) (lset l (ps1 ++ [VRef o]) h1) (ps1 ++ [VRef o])) as (h' & ps' & E' & ? & ? & ? & Hlen & ?); try done.
    - intros l' Hl'. rewrite lists_lset_ne by done. by apply Ho1.
    - by rewrite lists_lset.
    - intros y. rewrite elem_of_app, elem_of_list_singleton, Hps. split; [|tauto]. intros [?| ->]; [done|].
      apply Hps. by eapply elem_of_list_lookup_2.
    - rewrite app_length. simpl. lia.
    - exists h', ps'. split_and!; try done. rewrite app_length in Hlen. simpl in Hlen. lia. }
  destruct (Hgo n 0 h ps) as (h' & ps' & E & Ho & Ho' & Hl' & Hlen & Hps'); try done.
  { destruct ps; [done|simpl; lia]. }
  exists h', ps'. split; [done|]. split; [intros o; unfold cls_of; by rewrite Ho|].
  split; [eapply view_list; [by rewrite (slot_objs h)|done]|]. split; [done|]. split; [done|].
  intros o k Hok. unfold view. rewrite (slot_objs h h') by done. destruct (slot h o k) as [w|] eqn:Ew; [|done].
  cbn. destruct w as [| | | | | |l']; try done. rewrite Ho'; [done|]. intros ->.
  destruct (wf_unshared _ (proj1 HC) _ _ _ _ _ Hs Ew). congruence.
Qed.
Print Assumptions C78_endless.
(** [g14] with a second remote unit at the communication link. *)
Definition two_units_dump := Eval vm_compute in dump (snd (run_op cim14 20 (OAdd 6 n_RemoteUnits [8]) g14)).
Definition two_units : heap := undump two_units_dump.
Lemma two_units_inv : inv cim14 two_units.
Proof. apply inv_b_ok. vm_compute. reflexivity. Qed.
Lemma two_units_list : ∃ l, getattr cim14 (VRef 6) n_RemoteUnits two_units = (inl (VList l), two_units) ∧
  h_lists two_units !! l = Some [VRef 7; VRef 8].
Proof. apply (getattr_list cim14 two_units 6 n_RemoteUnits (PManyMany n_CommunicationLinks)); [compute_now|exact (not_alias_many _)|compute_now]. Qed.
(** The loop does not empty the collection. *)
Theorem C78_empties_refuted : ∃ h x p l ps h',
  inv cim14 h ∧ getattr cim14 (VRef x) p h = (inl (VList l), h) ∧ h_lists h !! l = Some ps ∧
  live_from 20 l 0 (λ y, remove cim14 20 (VRef x) p [y]) h = (inl tt, h') ∧ view h' x (Priv p) = Some (OL [VRef 8]).
Proof.
  destruct two_units_list as (l & Hg & Hl).
  destruct (C78_many_many cim14 20 20 two_units 6 n_RemoteUnits n_CommunicationLinks l [VRef 7; VRef 8]) as (h' & E & _ & _ & Hv & _).
  - apply two_units_inv.
  - apply two_units_inv.
  - by apply str_eqb_neq.
  - compute_now.
  - exact Hg.
  - exact Hl.
  - apply Nat.leb_le. compute_now.
  - exists two_units, 6, n_RemoteUnits, l, [VRef 7; VRef 8], h'. split; [exact two_units_inv|]. split; [exact Hg|].
    split; [exact Hl|]. split; [exact E|exact Hv].
Qed.
Print Assumptions C78_empties_refuted.
Example C78_example :
  (Consistent cim14 g14 ∧ pkind cim14 g14 2 n_Terminals = Some (PManyOne n_ConnectivityNode) ∧
   ∃ l, getattr cim14 (VRef 2) n_Terminals g14 = (inl (VList l), g14) ∧ h_lists g14 !! l = Some [VRef 0; VRef 1]) ∧
  (Consistent cim14 two_units ∧ MMNoDup (pkind cim14 two_units) (view two_units) ∧ n_RemoteUnits ≠ n_CommunicationLinks ∧
   pkind cim14 two_units 6 n_RemoteUnits = Some (PManyMany n_CommunicationLinks) ∧
   ∃ l, getattr cim14 (VRef 6) n_RemoteUnits two_units = (inl (VList l), two_units) ∧
     h_lists two_units !! l = Some [VRef 7; VRef 8]).
Proof.
  split.
  - split; [exact g14_Consistent|]. split; [compute_now|].
    apply (getattr_list cim14 g14 2 n_Terminals (PManyOne n_ConnectivityNode)); [compute_now|exact (not_alias_coll _)|compute_now].
  - split; [apply two_units_inv|]. split; [apply two_units_inv|]. split; [by apply str_eqb_neq|]. split; [compute_now|].
    exact two_units_list.
Qed.
