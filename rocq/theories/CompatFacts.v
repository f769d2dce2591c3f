(** Reading compatible statements keeps a graph sound. *)
From Coq Require Import String.
From stdpp Require Import prelude gmap.
From Verif Require Import PyStr PyHeap Schema Assoc AssocSpec HeapFacts LinksFacts AssocFacts AddRemoveFacts CtorFacts
  HistorySpec HistoryFacts Reader ReaderSpec ReaderFacts FrameFacts StatementFacts.

(** No statement removes a slot. *)
Definition slots_kept (h h' : heap) : Prop := ∀ o k, is_Some (slot h o k) → is_Some (slot h' o k).
Lemma slots_kept_hset h0 o k v h : slots_kept h0 h → slots_kept h0 (hset o k v h).
Proof.
  intros H1 o' k' Ho'. specialize (H1 _ _ Ho'). destruct (decide ((o, k) = (o', k'))) as [[= -> ->]|Hne].
  - destruct H1 as [? E%slot_cls]. rewrite slot_hset by done. by eexists.
  - by rewrite slot_hset_ne.
Qed.
Lemma slots_kept_alloc h0 h ck : slots_kept h0 h →
  slots_kept h0 (Heap (<[fresh_obj h := Obj ck ∅]> (h_objs h)) (h_lists h)).
Proof.
  intros H1 o k Ho. specialize (H1 _ _ Ho). destruct H1 as [v Hv]. rewrite slot_alloc; [by eexists|].
  apply slot_cls in Hv. by apply fresh_obj_alive.
Qed.
Lemma setattr_slots S f v p w h : slots_kept h (snd (setattr S f v p w h)).
Proof.
  apply (pres_setattr S (slots_kept h) (λ _ _, True)); try done.
  - intros. by apply slots_kept_hset.
  - by intros o k.
Qed.
Lemma add_slots S f v p xs h : slots_kept h (snd (add S f v p xs h)).
Proof.
  apply (pres_add S (slots_kept h) (λ _ _, True)); try done.
  - intros. by apply slots_kept_hset.
  - by intros o k.
Qed.

Section compat.
Context (S : schema) (Hde : distinct_ends S).
Notation K := (pkind S).

Lemma class_ends_ends h x ck p t tk q : cls_of h x = Some ck → cls_of h t = Some tk →
  class_ends S ck p tk q → ends_one_many (K h) x p t q.
Proof.
  intros Hx Ht (H1 & p' & H2 & H3). unfold ends_one_many, resolves, pkind. rewrite Hx, Ht. simpl.
  split; [done|]. exists p'. split; [done|]. destruct H3 as [->|H3]; [left|by right]. split; [done|]. congruence.
Qed.
Lemma Sound_view h o p k : Sound S h → K h o p = Some k → link_kind k = true → is_Some (view h o (Priv p)).
Proof. intros Hs Hk Hl. pose proof (so_slots _ _ Hs o p k Hk). by destruct k. Qed.
Lemma view_slot h o k w : view h o k = Some w → ∃ v, slot h o k = Some v.
Proof. unfold view. destruct (slot h o k); [eauto|done]. Qed.

(** A sound heap stays so when references are rearranged consistently. *)
Lemma Sound_links h h' : Sound S h → Frame h h' → Consistent S h' → slots_kept h h' →
  (∀ o n, view h' o (Pub n) = view h o (Pub n)) → Sound S h'.
Proof.
  intros [H1 H2 H3] HF HC Hsl Hp. split; [done| |].
  - intros o p k Hk. rewrite (Frame_pkind S h) in Hk by done. specialize (H2 o p k Hk).
    assert (is_Some (view h o (Priv p)) → is_Some (view h' o (Priv p))) as Hv.
    { intros [w Hw]. apply view_slot in Hw as [v Hv]. destruct (Hsl o (Priv p)) as [v' Hv']; [by eexists|].
      destruct (slot_view h' o (Priv p) v') as [z Hz]; [apply HC|done|]. by eexists. }
    destruct k; auto.
  - intros o ck a w. rewrite (Frame_cls h) by done. rewrite Hp. apply H3.
Qed.
(** Writing an ordinary attribute. *)
Lemma Sound_plain h o ck a v : Sound S h → cls_of h o = Some ck → is_vlist v = false →
  ((∃ y, v = VRef y) → ¬ plain_attr S ck a) → Frame h (hset o (Pub a) v h) ∧ Sound S (hset o (Pub a) v h).
Proof.
  intros [H1 H2 H3] Hc Hv Hpl. assert (is_Some (cls_of h o)) as Hc' by (by rewrite Hc).
  assert (Frame h (hset o (Pub a) v h)) as HF by (apply Frame_hset; [apply H1|done..]).
  split; [done|]. split.
  - split; [by eapply Frame_wf|]. apply (Links_ext (K h) _ (view (hset o (Pub a) v h)) _); [intros; symmetry; by apply Frame_pkind|done|].
    eapply Links_other; [|apply H1]. intros o' r k _ _. rewrite view_hset by done. by rewrite upd_ne.
  - intros o' p k. rewrite (Frame_pkind S h) by done. intros Hk. specialize (H2 o' p k Hk).
    rewrite view_hset by done. by rewrite upd_ne.
  - intros o' ck' a' w. rewrite (Frame_cls h) by done. rewrite view_hset by done. unfold upd.
    case_decide as Hd; [|apply H3]. destruct Hd as [-> [= ->]]. intros Hck Hpa [= <-].
    assert (ck' = ck) as -> by congruence. exists v. split; [done|]. destruct v; try done.
    apply Hpl; [by eexists|done].
Qed.
Lemma Sound_private h o a v : Sound S h → K h o a = Some PPrivate → is_vlist v = false →
  Frame h (hset o (Priv a) v h) ∧ Sound S (hset o (Priv a) v h).
Proof.
  intros [H1 H2 H3] Hk Hv. assert (is_Some (cls_of h o)) as Hc'.
  { unfold pkind in Hk. destruct (cls_of h o); [by eexists|done]. }
  assert (Frame h (hset o (Priv a) v h)) as HF by (apply Frame_hset; [apply H1|done..]).
  split; [done|]. split.
  - split; [by eapply Frame_wf|]. apply (Links_ext (K h) _ (view (hset o (Priv a) v h)) _); [intros; symmetry; by apply Frame_pkind|done|].
    eapply Links_other; [|apply H1]. intros o' r k Hr Hl. rewrite view_hset by done. rewrite upd_ne; [done|].
    intros [= -> ->]. rewrite Hk in Hr. by simplify_eq.
  - intros o' p k. rewrite (Frame_pkind S h) by done. intros Hk'. specialize (H2 o' p k Hk').
    rewrite view_hset by done. destruct (decide ((o', p) = (o, a))) as [[= -> ->]|Hne].
    + rewrite Hk in Hk'. by simplify_eq.
    + rewrite upd_ne; [done|]. congruence.
  - intros o' ck' a' w. rewrite (Frame_cls h) by done. rewrite view_hset by done. rewrite upd_ne by done. apply H3.
Qed.

Context (f : nat) (pf : pystr → option pystr) (base rdf : pystr).
Notation F := (Datatypes.S (Datatypes.S f)).

Lemma getattr_priv h o p k : K h o p = Some k → match k with PAlias _ _ => False | _ => True end →
  getattr S (VRef o) p h = read_key (VRef o) (Priv p) h.
Proof. intros Hk Ha. unfold getattr. rewrite obj_prop_pkind, Hk. by destruct k. Qed.
Lemma getattr_pub h o p : K h o p = None → getattr S (VRef o) p h = read_key (VRef o) (key_of p) h.
Proof. intros Hk. unfold getattr. by rewrite obj_prop_pkind, Hk. Qed.

(** Assigning single references and adding to collections. *)
Lemma set_single_sound h x ck p t tk q : Sound S h → cls_of h x = Some ck → cls_of h t = Some tk → class_ends S ck p tk q →
  ∀ f0, ∃ h', setattr S (Datatypes.S f0) (VRef x) p (VRef t) h = (inl tt, h') ∧ Frame h h' ∧ Sound S h' ∧
    SetSingle (view h) (view h') x p q (VRef t).
Proof.
  intros Hs Hx Ht He f0. pose proof (class_ends_ends h x ck p t tk q Hx Ht He) as He'.
  destruct (Sound_view h x p (POneMany q) Hs) as [w Hw]; [apply He'|done|].
  pose proof Hw as [v Hv]%view_slot. destruct (proj2 He') as (p' & Hkt & _).
  destruct (Sound_view h t q (PManyOne p') Hs Hkt) as [wt Hwt]; [done|].
  destruct (lk_coll _ _ (proj2 (so_consistent _ _ Hs)) _ _ _ _ Hkt Hwt) as (ys & -> & _).
  assert (VRef t = VNone ∨ ∃ t0 ys, VRef t = VRef t0 ∧ ends_one_many (K h) x p t0 q ∧ view h t0 (Priv q) = Some (OL ys)) as Hfit.
  { right. eauto. }
  destruct (set_one_many_effect S f0 h x p q v (VRef t)) as (h' & E & HF & HS); [apply Hs|apply He'|done|done|].
  exists h'. split_and!; [done|done| |done]. apply (Sound_links h); [done|done| | |].
  - eapply Consistent_SetSingle; [apply Hs|apply He'|done|done|done|done].
  - change h' with (snd ((inl tt : unit + exn), h')). rewrite <- E. apply setattr_slots.
  - intros o n. by apply (ss_frame _ _ _ _ _ _ HS).
Qed.
Lemma set_pair_sound h x ck p t tk q : Sound S h → cls_of h x = Some ck → cls_of h t = Some tk →
  lookup_prop S ck p = Some (POneOne q) → lookup_prop S tk q = Some (POneOne p) →
  ∃ h', setattr S F (VRef x) p (VRef t) h = (inl tt, h') ∧ Frame h h' ∧ Sound S h' ∧
    SetPair (view h) (view h') x p q (VRef t).
Proof using Hde.
  intros Hs Hx Ht Hp Hq.
  assert (K h x p = Some (POneOne q)) as Hkx by (unfold pkind; by rewrite Hx).
  assert (K h t q = Some (POneOne p)) as Hkt by (unfold pkind; by rewrite Ht).
  assert (p ≠ q) as Hpq by (intros ->; by destruct (Hde ck q)).
  destruct (Sound_view h x p _ Hs Hkx) as [w Hw]; [done|]. pose proof Hw as [v Hv]%view_slot.
  destruct (Sound_view h t q _ Hs Hkt) as [w2 Hw2]; [done|]. pose proof Hw2 as [v2 Hv2]%view_slot.
  assert (VRef t = VNone ∨ ∃ y c, VRef t = VRef y ∧ ends_one_one (K h) x p y q ∧ slot h y (Priv q) = Some c) as Hfit.
  { right. exists t, v2. by split_and!. }
  destruct (set_one_one_effect S f h x p q v (VRef t)) as (h' & E & HF & HS); [apply Hs|done..|].
  exists h'. split_and!; [done|done| |done]. apply (Sound_links h); [done|done| | |].
  - eapply Consistent_SetPair; [apply Hs|done..].
  - change h' with (snd ((inl tt : unit + exn), h')). rewrite <- E. apply setattr_slots.
  - intros o n. by apply (sp_frame _ _ _ _ _ _ HS).
Qed.
Lemma add_one_sound h x ck a t tk p' p : Sound S h → cls_of h x = Some ck → cls_of h t = Some tk →
  lookup_prop S ck a = Some (PManyOne p') → class_ends S tk p ck a →
  (p' = p ∨ ∃ c, lookup_prop S tk p' = Some (PAlias p c)) →
  ∃ h', add S F (VRef x) a [VRef t] h = (inl tt, h') ∧ Frame h h' ∧ Sound S h' ∧
    AssignAll (view h) (view h') [t] p a (VRef x).
Proof.
  intros Hs Hx Ht Ha He Hr.
  assert (K h x a = Some (PManyOne p')) as Hk by (unfold pkind; by rewrite Hx).
  destruct (Sound_view h x a _ Hs Hk) as [w Hw]; [done|].
  destruct (lk_coll _ _ (proj2 (so_consistent _ _ Hs)) _ _ _ _ Hk Hw) as (ys & -> & _).
  pose proof (class_ends_ends h t tk p x ck a Ht Hx He) as He'.
  destruct (Sound_view h t p (POneMany a) Hs) as [wt Hwt]; [apply He'|done|].
  pose proof Hwt as [v Hv]%view_slot.
  destruct (add_one_many_effect S f h x a p' p [t] ys) as (h' & E & HF & HC & HA & _); [apply Hs|done|done| |].
  { intros y ->%elem_of_list_singleton. split_and!; [done| |by eexists].
    unfold resolves, pkind. rewrite Ht. simpl. destruct Hr as [->|Hr]; [left|by right]. split; [done|].
    intros t0 c E. destruct He as [E2 _]. congruence. }
  exists h'. split_and!; [done|done| |done]. apply (Sound_links h); [done|done|done| |].
  - change h' with (snd ((inl tt : unit + exn), h')). rewrite <- E. apply add_slots.
  - intros o n. apply (aa_frame _ _ _ _ _ _ HA); [done|done|done].
Qed.
Lemma add_many_sound h x ck a t tk q : Sound S h → cls_of h x = Some ck → cls_of h t = Some tk →
  lookup_prop S ck a = Some (PManyMany q) → lookup_prop S tk q = Some (PManyMany a) →
  ∃ h', add S F (VRef x) a [VRef t] h = (inl tt, h') ∧ Frame h h' ∧ Sound S h' ∧ AddMany (view h) (view h') x a t q.
Proof using Hde.
  intros Hs Hx Ht Ha Hq.
  assert (K h x a = Some (PManyMany q)) as Hkx by (unfold pkind; by rewrite Hx).
  assert (K h t q = Some (PManyMany a)) as Hkt by (unfold pkind; by rewrite Ht).
  assert (a ≠ q) as Hpq by (intros ->; by destruct (Hde ck q)).
  destruct (Sound_view h x a _ Hs Hkx) as [w Hw]; [done|].
  destruct (lk_many_many _ _ (proj2 (so_consistent _ _ Hs)) _ _ _ _ Hkx Hw) as (ps & -> & _).
  destruct (Sound_view h t q _ Hs Hkt) as [w2 Hw2]; [done|].
  destruct (lk_many_many _ _ (proj2 (so_consistent _ _ Hs)) _ _ _ _ Hkt Hw2) as (qs & -> & _).
  destruct (add_many_many_exec S F h x a q t ps qs) as (h' & E & HF & HA); [apply Hs|done..|].
  exists h'. split_and!; [done|done| |done]. apply (Sound_links h); [done|done| | |].
  - split; [by eapply Frame_wf|]. eapply (Links_ext (K h) _ (view h')); [intros; symmetry; by apply Frame_pkind|done|].
    eapply (Links_AddMany (K h) (view h) (view h') x a t q); [apply Hs|done..].
  - change h' with (snd ((inl tt : unit + exn), h')). rewrite <- E. apply add_slots.
  - intros o n. by apply (am_frame _ _ _ _ _ _ HA).
Qed.

(** One statement. *)
Definition keeps_sound {A} (h : heap) (r : A * heap) : Prop := Frame h r.2 ∧ Sound S r.2.
Lemma keeps_same {A} h (a : A) : Sound S h → keeps_sound h (a, h).
Proof. intros Hs. split; [|done]. apply Frame_refl, Hs. Qed.
Lemma keeps_ret {A} h h' (a : A) m : m = (a, h') → Frame h h' → Sound S h' → keeps_sound h m.
Proof. by intros -> ? ?. Qed.

Lemma set_ref_sound h d o ck a id : Sound S h → dict_alive d h → cls_of h o = Some ck →
  (∀ v tk, assoc id d = Some v → val_cls h v = Some tk → links_to S ck a tk) →
  keeps_sound h (set_ref S F d o a id h).
Proof using Hde.
  intros Hs Hd Hc Hl. unfold set_ref.
  destruct (assoc id d) as [v|] eqn:Ev; [|destruct (find_attr S o a h); by apply keeps_same].
  destruct (Hd _ _ Ev) as (t & -> & tk & Ht). specialize (Hl _ tk eq_refl Ht). unfold links_to in Hl.
  assert (∀ w, find_attr S o a h = Found w → fst (getattr S (VRef o) a h) = inl w) as Hfa.
  { intros w. unfold find_attr. destruct (fst (getattr S (VRef o) a h)); [by intros [= <-]|].
    destruct (special_name a); [done|]. destruct (cls_of h o); [|done]. by destruct (accessor_name S _ a). }
  destruct (find_attr S o a h) as [w| | |] eqn:Ef; try by apply keeps_same.
  specialize (Hfa w eq_refl).
  assert (∀ m : unit + exn, ∀ r, keeps_sound h r → keeps_sound h (if match a with 95%N :: _ => true | _ => false end then (m, h) else r)) as Hif.
  { intros m r Hr. destruct (match a with [] => false | _ => _ end); [by apply keeps_same|done]. }
  assert (∀ p, K h o p = lookup_prop S ck p) as HK by (intros p; unfold pkind; by rewrite Hc).
  destruct (lookup_prop S ck a) as [[q|q|q|q| |q|p c]|] eqn:Ek.
  - (* one-many *)
    rewrite (getattr_priv h o a (POneMany q)) in Hfa; [|by rewrite HK|done].
    destruct (Sound_view h o a (POneMany q) Hs) as [z Hz]; [by rewrite HK|done|].
    destruct w; try by apply keeps_same.
    + destruct (set_single_sound h o ck a t tk q Hs Hc Ht Hl (Datatypes.S f)) as (h' & E & HF & HS & _). by eapply keeps_ret.
    + exfalso. unfold read_key in Hfa. destruct (slot h o (Priv a)) eqn:Es; [|done]. simpl in Hfa. simplify_eq.
      unfold view in Hz. rewrite Es in Hz. simpl in Hz. destruct (h_lists h !! l) eqn:El; [|done]. simpl in Hz.
      destruct (lk_single _ _ (proj2 (so_consistent _ _ Hs)) o a q (OL l0)) as [|(?&?&?&?)]; [by rewrite HK|unfold view; rewrite Es; simpl; by rewrite El|done|done].
  - (* many-one *)
    rewrite (getattr_priv h o a (PManyOne q)) in Hfa; [|by rewrite HK|done].
    destruct (Sound_view h o a (PManyOne q) Hs) as [z Hz]; [by rewrite HK|done|].
    destruct (lk_coll _ _ (proj2 (so_consistent _ _ Hs)) o a q z) as (ys & -> & _); [by rewrite HK|done|].
    unfold read_key in Hfa. destruct (slot h o (Priv a)) as [v'|] eqn:Es; [|done]. simpl in Hfa. simplify_eq.
    unfold view in Hz. rewrite Es in Hz. destruct w; simpl in Hz; try done. apply Hif.
    destruct Hl as (p & He & Hr).
    destruct (add_one_sound h o ck a t tk q p Hs Hc Ht Ek He Hr) as (h' & E & HF & HS & _). by eapply keeps_ret.
  - (* one-one *)
    rewrite (getattr_priv h o a (POneOne q)) in Hfa; [|by rewrite HK|done].
    destruct (Sound_view h o a (POneOne q) Hs) as [z Hz]; [by rewrite HK|done|].
    destruct w; try by apply keeps_same.
    + destruct (set_pair_sound h o ck a t tk q Hs Hc Ht Ek Hl) as (h' & E & HF & HS & _). by eapply keeps_ret.
    + exfalso. unfold read_key in Hfa. destruct (slot h o (Priv a)) eqn:Es; [|done]. simpl in Hfa. simplify_eq.
      unfold view in Hz. rewrite Es in Hz. simpl in Hz. destruct (h_lists h !! l) eqn:El; [|done]. simpl in Hz.
      destruct (lk_one_one _ _ (proj2 (so_consistent _ _ Hs)) o a q (OL l0)) as [|(?&?&?)]; [by rewrite HK|unfold view; rewrite Es; simpl; by rewrite El|done|done].
  - (* many-many *)
    rewrite (getattr_priv h o a (PManyMany q)) in Hfa; [|by rewrite HK|done].
    destruct (Sound_view h o a (PManyMany q) Hs) as [z Hz]; [by rewrite HK|done|].
    destruct (lk_many_many _ _ (proj2 (so_consistent _ _ Hs)) o a q z) as (ys & -> & _); [by rewrite HK|done|].
    unfold read_key in Hfa. destruct (slot h o (Priv a)) as [v'|] eqn:Es; [|done]. simpl in Hfa. simplify_eq.
    unfold view in Hz. rewrite Es in Hz. destruct w; simpl in Hz; try done. apply Hif.
    destruct (add_many_sound h o ck a t tk q Hs Hc Ht Ek Hl) as (h' & E & HF & HS & _). by eapply keeps_ret.
  - (* private *)
    rewrite (getattr_priv h o a PPrivate) in Hfa; [|by rewrite HK|done].
    destruct w; try by apply keeps_same.
    + destruct (Sound_private h o a (VRef t) Hs) as [HF HS]; [by rewrite HK|done|].
      apply (keeps_ret h (hset o (Priv a) (VRef t) h) (inl tt)); [|done..]. cbn [setattr].
      rewrite obj_prop_pkind, HK, Ek. apply write_key_ok. by rewrite Hc.
    + apply Hif. unfold add. rewrite obj_prop_pkind, HK, Ek. by apply keeps_same.
  - done.
  - (* alias *)
    destruct Hl as [q He]. pose proof (class_ends_ends h o ck p t tk q Hc Ht He) as He'.
    unfold getattr in Hfa. rewrite obj_prop_pkind, HK, Ek in Hfa.
    destruct w; try by apply keeps_same.
    + destruct (set_single_sound h o ck p t tk q Hs Hc Ht He f) as (h' & E & HF & HS & _).
      apply (keeps_ret h h' (inl tt)); [|done..]. rewrite <- E. cbn [setattr]. by rewrite obj_prop_pkind, HK, Ek.
    + apply Hif. unfold add. rewrite obj_prop_pkind, HK, Ek. by apply keeps_same.
  - (* no property *)
    destruct Hl as [Hpub Hna]. rewrite getattr_pub in Hfa by (by rewrite HK).
    destruct w; try by apply keeps_same.
    + destruct (Sound_plain h o ck a (VRef t) Hs Hc) as [HF HS]; [done|intros _ (_ & _ & c & ? & ?); by eapply Hna|].
      apply (keeps_ret h (hset o (Pub a) (VRef t) h) (inl tt)); [|done..]. rewrite <- Hpub. apply set_plain; [by rewrite HK|by rewrite Hc].
    + apply Hif. unfold add. rewrite obj_prop_pkind, HK, Ek. by apply keeps_same.
Qed.

Lemma convert_plain cur t h : (∀ o, cur ≠ VRef o) → (∀ l, cur ≠ VList l) →
  ∃ r, convert S F pf cur t h = (r, h) ∧ ∀ v, r = inl v → (∀ o, v ≠ VRef o) ∧ is_vlist v = false.
Proof.
  intros H1 H2. unfold convert.
  destruct cur as [|b|z|r|s|o|l]; try (by destruct (H1 o)); try (by destruct (H2 l)); destruct t as [t|];
    try (eexists; split; [reflexivity|]; by intros ? [= <-]); try (eexists; split; [reflexivity|]; done).
  - destruct (ascii t); [|eexists; by split]. destruct (parse_int t); eexists; (split; [reflexivity|]); [by intros ? [= <-]|done].
  - destruct (pf t); eexists; (split; [reflexivity|]); [by intros ? [= <-]|done].
Qed.

Lemma found_plain h o ck a w : Sound S h → cls_of h o = Some ck → plain_attr S ck a → find_attr S o a h = Found w →
  (∀ y, w ≠ VRef y) ∧ (∀ l, w ≠ VList l).
Proof.
  intros Hs Hc Hpl Ef. pose proof Hpl as (Hpub & Hk & _).
  assert (K h o a = None) as HK by (unfold pkind; by rewrite Hc).
  unfold find_attr in Ef. rewrite getattr_pub, Hpub in Ef by done. unfold read_key in Ef.
  destruct (slot h o (Pub a)) as [v|] eqn:Es; simpl in Ef.
  - simplify_eq. assert (∃ z, view h o (Pub a) = Some z) as [z Hz] by (eapply slot_view; [apply Hs|done]).
    destruct (so_plain _ _ Hs o ck a z Hc Hpl Hz) as (v & -> & Hv). unfold view in Hz. rewrite Es in Hz. simpl in Hz.
    destruct w; simplify_eq; split; try done. by destruct (h_lists h !! l).
  - destruct (special_name a); [done|]. destruct (cls_of h o); [|done]. by destruct (accessor_name S _ a).
Qed.
Lemma write_plain_sound h o ck a v : Sound S h → cls_of h o = Some ck → plain_attr S ck a →
  (∀ y, v ≠ VRef y) → is_vlist v = false → keeps_sound h (setattr S F (VRef o) a v h).
Proof.
  intros Hs Hc (Hpub & Hk & Hpl) Hv Hl. assert (K h o a = None) as HK by (unfold pkind; by rewrite Hc).
  rewrite set_plain by (done || by rewrite Hc). rewrite Hpub.
  destruct (Sound_plain h o ck a v Hs Hc Hl) as [HF HS]; [by intros [y ->]; destruct (Hv y)|]. by split.
Qed.

Lemma set_property_sound h d o ck e a : Sound S h → dict_alive d h → cls_of h o = Some ck → is_property base rdf e a →
  compatible base rdf S (λ id, v ← assoc id d; val_cls h v) ck e →
  keeps_sound h (set_property S F pf base rdf d o e h).
Proof using Hde.
  intros Hs Hd Hc He Hcomp. specialize (Hcomp a He). destruct He as (_ & _ & _ & <-).
  unfold set_property. unfold resource in Hcomp. set (a := after_last_dot _) in *.
  destruct (rdf_attr rdf "resource" (e_attrs e)) as [[|c r]|]; simpl.
  - destruct (find_attr S o a h); by apply keeps_same.
  - destruct (N.eqb_spec c 35) as [->|Hne].
    + apply (set_ref_sound h d o ck a r Hs Hd Hc). intros v tk Hv Htk. apply Hcomp. by rewrite Hv.
    + assert (plain_attr S ck a) as Hpl by (destruct c as [|c]; [done|]; repeat (destruct c as [c|c|]; try done)).
      unfold set_enum. destruct (find_attr S o a h); try (by apply keeps_same);
        destruct (rsplit1_1 (c :: r)); try by apply keeps_same. by apply (write_plain_sound h o ck a (VStr p)).
  - unfold set_text. destruct (find_attr S o a h) as [w| | |] eqn:Ef; try by apply keeps_same.
    destruct (found_plain h o ck a w Hs Hc Hcomp Ef) as [Hw1 Hw2].
    destruct (convert_plain w (e_text e) h Hw1 Hw2) as (r & Er & Hr). unfold swallow_type, bind. rewrite Er.
    destruct r as [v|x]; [|destruct x; by apply keeps_same].
    destruct (Hr v eq_refl) as [Hv1 Hv2]. destruct (write_plain_sound h o ck a v Hs Hc Hcomp Hv1 Hv2) as [HF HS].
    destruct (setattr S F (VRef o) a v h) as [[[]|x] h']; [by split|]. destruct x; by split.
Qed.

(** All statements. *)
Lemma exec_sound d sts cl : ∀ h, Sound S h → dict_alive d h →
  (∀ id, cl id = (v ← assoc id d; val_cls h v)) →
  (∀ id e, (id, e) ∈ sts → ∃ ck, cl id = Some ck ∧ compatible base rdf S cl ck e ∧ ∃ a, is_property base rdf e a) →
  keeps_sound h (exec base rdf S F pf d sts h).
Proof using Hde.
  induction sts as [|[id e] sts IH]; intros h Hs Hd Hcl Hc; [by apply keeps_same|].
  destruct (Hc id e) as (ck & Hck & Hcomp & a & Ha); [left|].
  unfold exec. cbn [for_each]. fold (exec base rdf S F pf d). unfold exec1 at 1. cbn [fst snd].
  rewrite Hcl in Hck. destruct (assoc id d) as [v|] eqn:Ev; [|done].
  destruct (Hd _ _ Ev) as (o & -> & _). simpl in Hck.
  assert (keeps_sound h (set_property S F pf base rdf d o e h)) as Hk1.
  { eapply set_property_sound; try done. intros a' Ha'. specialize (Hcomp a' Ha').
    destruct (resource rdf e) as [r|]; [|done]. destruct r as [|c r]; [done|].
    destruct c as [|c]; [done|]. do 6 (destruct c as [c|c|]; try done). intros tk Htk. apply Hcomp. by rewrite Hcl. }
  unfold bind. destruct (set_property S F pf base rdf d o e h) as [[[]|x] h1]; [|done].
  destruct Hk1 as [HF1 Hs1]. simpl in *.
  assert (∀ id, cl id = (v ← assoc id d; val_cls h1 v)) as Hcl1.
  { intros id'. rewrite Hcl. destruct (assoc id' d) as [v|] eqn:Ev'; [|done]. destruct (Hd _ _ Ev') as (o' & -> & _).
    simpl. by rewrite (Frame_cls h h1). }
  destruct (IH h1) as [HF2 Hs2]; [done| |done| |].
  - intros id' v Hv. destruct (Hd _ _ Hv) as (o' & -> & ?). exists o'. split; [done|]. by rewrite (Frame_cls h h1).
  - intros id' e' Hin. apply Hc. by right.
  - split; [by eapply Frame_trans|done].
Qed.
End compat.
