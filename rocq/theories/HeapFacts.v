(** Lemmas about the heap and the monad. *)
From stdpp Require Import prelude gmap.
From Verif Require Import PyStr PyHeap Schema Assoc AssocSpec.

Lemma bind_inl {A B} (m : M A) (f : A → M B) h a h' :
  m h = (inl a, h') → bind m f h = f a h'.
Proof. unfold bind. by intros ->. Qed.
Lemma bind_inr {A B} (m : M A) (f : A → M B) h e h' :
  m h = (inr e, h') → bind m f h = (inr e, h').
Proof. unfold bind. by intros ->. Qed.
Lemma bind_inv {A B} (m : M A) (f : A → M B) h r h' :
  bind m f h = (inl r, h') → ∃ a h1, m h = (inl a, h1) ∧ f a h1 = (inl r, h').
Proof. unfold bind. destruct (m h) as [[a|e] h1]; naive_solver. Qed.

Lemma cls_hset o k v h o' : cls_of (hset o k v h) o' = cls_of h o'.
Proof.
  unfold cls_of, hset; simpl. destruct (decide (o = o')) as [->|Hne].
  - rewrite lookup_alter. by destruct (h_objs h !! o').
  - by rewrite lookup_alter_ne.
Qed.
Lemma cls_lset l xs h o : cls_of (lset l xs h) o = cls_of h o.
Proof. done. Qed.

Lemma slot_cls h o k v : slot h o k = Some v → is_Some (cls_of h o).
Proof. unfold slot, cls_of. destruct (h_objs h !! o); simpl; [eauto|done]. Qed.

Lemma slot_hset o k v h : is_Some (cls_of h o) → slot (hset o k v h) o k = Some v.
Proof.
  unfold slot, cls_of, hset; simpl. rewrite lookup_alter.
  destruct (h_objs h !! o); simpl; [|by intros []]. intros _. by rewrite lookup_insert.
Qed.
Lemma slot_hset_ne o k v h o' k' :
  (o, k) ≠ (o', k') → slot (hset o k v h) o' k' = slot h o' k'.
Proof.
  unfold slot, hset; simpl. intros Hne. destruct (decide (o = o')) as [->|Ho].
  - rewrite lookup_alter. destruct (h_objs h !! o'); simpl; [|done].
    rewrite lookup_insert_ne; [done|]. naive_solver.
  - by rewrite lookup_alter_ne.
Qed.
Lemma slot_lset l xs h o k : slot (lset l xs h) o k = slot h o k.
Proof. done. Qed.
Lemma lists_hset o k v h : h_lists (hset o k v h) = h_lists h.
Proof. done. Qed.
Lemma lists_lset l xs h : h_lists (lset l xs h) !! l = Some xs.
Proof. unfold lset; simpl. by rewrite lookup_insert. Qed.
Lemma lists_lset_ne l xs h l' : l ≠ l' → h_lists (lset l xs h) !! l' = h_lists h !! l'.
Proof. intros. unfold lset; simpl. by rewrite lookup_insert_ne. Qed.
Lemma fresh_list_None h : h_lists h !! fresh_list h = None.
Proof. apply (not_elem_of_dom (D:=gset nat)). unfold fresh_list, fresh_obj. apply is_fresh. Qed.
Lemma fresh_obj_None h : h_objs h !! fresh_obj h = None.
Proof. apply (not_elem_of_dom (D:=gset nat)). unfold fresh_list, fresh_obj. apply is_fresh. Qed.

Lemma write_key_ok h o k v :
  is_Some (cls_of h o) → write_key (VRef o) k v h = (inl tt, hset o k v h).
Proof. unfold write_key, cls_of. destruct (h_objs h !! o); [done|by intros []]. Qed.
Lemma read_key_ok h o k v :
  slot h o k = Some v → read_key (VRef o) k h = (inl v, h).
Proof. unfold read_key. by intros ->. Qed.

(** Slot updates and views. *)
Definition upd (V : nat → key → option ov) (o : nat) (k : key) (w : ov) : nat → key → option ov :=
  λ o' k', if decide (o' = o ∧ k' = k) then Some w else V o' k'.
Lemma upd_eq V o k w : upd V o k w o k = Some w.
Proof. unfold upd. by rewrite decide_True. Qed.
Lemma upd_ne V o k w o' k' : (o', k') ≠ (o, k) → upd V o k w o' k' = V o' k'.
Proof. intros. unfold upd. rewrite decide_False; [done|naive_solver]. Qed.

Lemma upd_ext V V' o k w o' k' :
  ((o', k') ≠ (o, k) → V o' k' = V' o' k') → upd V o k w o' k' = upd V' o k w o' k'.
Proof. intros H. unfold upd. destruct (decide _); [done|]. apply H. naive_solver. Qed.

Definition is_vlist (v : val) : bool := match v with VList _ => true | _ => false end.

Lemma view_slot h o k v : slot h o k = Some v → is_vlist v = false → view h o k = Some (OV v).
Proof. unfold view. intros -> ?. by destruct v. Qed.
Lemma view_OV h o k v : view h o k = Some (OV v) → slot h o k = Some v.
Proof.
  unfold view. destruct (slot h o k) as [[]|]; simpl; try naive_solver.
  destruct (h_lists h !! l); naive_solver.
Qed.
Lemma view_OL h o k xs :
  view h o k = Some (OL xs) → ∃ l, slot h o k = Some (VList l) ∧ h_lists h !! l = Some xs.
Proof.
  unfold view. destruct (slot h o k) as [[]|] eqn:E; simpl; try naive_solver.
  destruct (h_lists h !! l) eqn:E2; naive_solver.
Qed.
Lemma view_list h o k l xs :
  slot h o k = Some (VList l) → h_lists h !! l = Some xs → view h o k = Some (OL xs).
Proof. unfold view. intros -> ?. simpl. by simplify_option_eq. Qed.
Lemma view_OV_nolist h o k v : view h o k = Some (OV v) → is_vlist v = false.
Proof.
  unfold view. destruct (slot h o k) as [[]|] eqn:E; simpl; try naive_solver.
  destruct (h_lists h !! l) eqn:E2; naive_solver.
Qed.
Lemma view_Some_cls h o k w : view h o k = Some w → is_Some (cls_of h o).
Proof. unfold view. destruct (slot h o k) eqn:E; [|done]. intros _. by eapply slot_cls. Qed.
Lemma view_None_slot h o k : Wf h → view h o k = None → slot h o k = None.
Proof.
  unfold view. intros [Hl _]. destruct (slot h o k) as [[]|] eqn:E; simpl; try done.
  destruct (Hl _ _ _ E) as [? ->]. done.
Qed.

(** Writing a plain value. *)
Lemma view_hset h o k v o' k' :
  is_Some (cls_of h o) → is_vlist v = false →
  view (hset o k v h) o' k' = upd (view h) o k (OV v) o' k'.
Proof.
  intros Hc Hv. unfold upd. destruct (decide (o' = o ∧ k' = k)) as [[-> ->]|Hne].
  - apply view_slot; [by apply slot_hset|done].
  - unfold view. rewrite slot_hset_ne; [done|naive_solver].
Qed.
Lemma wf_hset h o k v :
  Wf h → is_Some (cls_of h o) → is_vlist v = false → Wf (hset o k v h).
Proof.
  intros [Hl Hu] Hc Hv. split.
  - intros o' k' l. destruct (decide ((o, k) = (o', k'))) as [[= -> ->]|Hne].
    + rewrite slot_hset by done. by intros [= ->].
    + rewrite slot_hset_ne by done. apply Hl.
  - intros o1 k1 o2 k2 l.
    destruct (decide ((o, k) = (o1, k1))) as [[= -> ->]|Hne].
    { rewrite slot_hset by done. by intros [= ->]. }
    destruct (decide ((o, k) = (o2, k2))) as [[= -> ->]|Hne2].
    { rewrite (slot_hset o2) by done. by intros ? [= ->]. }
    rewrite !slot_hset_ne by done. apply Hu.
Qed.

(** Rebinding a slot to a new list. *)
Definition hnew (o : nat) (k : key) (xs : list val) (h : heap) : heap :=
  hset o k (VList (fresh_list h)) (lset (fresh_list h) xs h).
Lemma view_hnew h o k xs o' k' :
  Wf h → is_Some (cls_of h o) →
  view (hnew o k xs h) o' k' = upd (view h) o k (OL xs) o' k'.
Proof.
  intros [Hl Hu] Hc. unfold upd, hnew. destruct (decide (o' = o ∧ k' = k)) as [[-> ->]|Hne].
  - eapply view_list; [by apply slot_hset|]. by rewrite lists_hset, lists_lset.
  - unfold view. rewrite slot_hset_ne by naive_solver. rewrite slot_lset, lists_hset.
    destruct (slot h o' k') as [[]|] eqn:E; simpl; try done.
    rewrite lookup_insert_ne; [done|]. intros <-.
    destruct (Hl _ _ _ E) as [? E2]. by rewrite fresh_list_None in E2.
Qed.
Lemma wf_hnew h o k xs : Wf h → is_Some (cls_of h o) → Wf (hnew o k xs h).
Proof.
  intros [Hl Hu] Hc. unfold hnew. split.
  - intros o' k' l. destruct (decide ((o, k) = (o', k'))) as [[= -> ->]|Hne].
    + rewrite slot_hset by done. intros [= <-]. rewrite lists_hset, lists_lset. eauto.
    + rewrite slot_hset_ne, slot_lset by done. intros [xs' ?]%Hl.
      rewrite lists_hset. destruct (decide (fresh_list h = l)) as [->|].
      * rewrite lists_lset; eauto.
      * rewrite lists_lset_ne by done. eauto.
  - assert (∀ o' k', slot h o' k' ≠ Some (VList (fresh_list h))) as Hfr.
    { intros o' k' E. destruct (Hl _ _ _ E) as [? E2]. by rewrite fresh_list_None in E2. }
    intros o1 k1 o2 k2 l.
    destruct (decide ((o, k) = (o1, k1))) as [[= <- <-]|Hne];
    destruct (decide ((o, k) = (o2, k2))) as [E|Hne2]; try (injection E as <- <-).
    + done.
    + rewrite slot_hset by done. rewrite slot_hset_ne by done. rewrite slot_lset.
      intros [= <-] ?. by destruct (Hfr o2 k2).
    + rewrite (slot_hset o) by done. rewrite slot_hset_ne by done. rewrite slot_lset.
      intros ? [= <-]. by destruct (Hfr o1 k1).
    + rewrite !slot_hset_ne, !slot_lset by done. apply Hu.
Qed.

(** Changing the members of a list in place. *)
Lemma view_lset h o k l xs ys o' k' :
  Wf h → slot h o k = Some (VList l) → h_lists h !! l = Some xs →
  view (lset l ys h) o' k' = upd (view h) o k (OL ys) o' k'.
Proof.
  intros [Hl Hu] Hs Hx. unfold upd. destruct (decide (o' = o ∧ k' = k)) as [[-> ->]|Hne].
  - eapply view_list; [done|]. by rewrite lists_lset.
  - unfold view. rewrite slot_lset. destruct (slot h o' k') as [[]|] eqn:E; simpl; try done.
    rewrite lookup_insert_ne; [done|]. intros <-. apply Hne. by eapply Hu.
Qed.
Lemma wf_lset h l ys : Wf h → Wf (lset l ys h).
Proof.
  intros [Hl Hu]. split.
  - intros o' k' l'. rewrite slot_lset. intros [xs' ?]%Hl. 
    destruct (decide (l = l')) as [->|].
    + rewrite lists_lset; eauto.
    + rewrite lists_lset_ne by done. eauto.
  - apply Hu.
Qed.

Lemma pkind_hset S o k v h o' p : pkind S (hset o k v h) o' p = pkind S h o' p.
Proof. unfold pkind. by rewrite cls_hset. Qed.
Lemma obj_prop_pkind S h o p : obj_prop S h o p = pkind S h o p.
Proof. done. Qed.

Lemma pkind_same S h h' o p : same_classes h h' → pkind S h' o p = pkind S h o p.
Proof. intros Hs. unfold pkind. by rewrite Hs. Qed.
Lemma same_classes_hset o k v h : same_classes h (hset o k v h).
Proof. intros o'. apply cls_hset. Qed.
Lemma same_classes_trans h1 h2 h3 : same_classes h1 h2 → same_classes h2 h3 → same_classes h1 h3.
Proof. intros H1 H2 o. by rewrite H2, H1. Qed.
Lemma same_classes_refl h : same_classes h h.
Proof. by intros o. Qed.

Lemma elem_of_without v x xs : v ∈ without x xs ↔ v ∈ xs ∧ v ≠ x.
Proof. unfold without. rewrite elem_of_list_filter. naive_solver. Qed.
Lemma NoDup_without x xs : NoDup xs → NoDup (without x xs).
Proof. apply NoDup_filter. Qed.
Lemma without_id x xs : x ∉ xs → without x xs = xs.
Proof.
  unfold without. induction xs as [|y ys IH]; [done|]. intros [Hne Hni]%not_elem_of_cons.
  rewrite filter_cons_True by done. by rewrite IH.
Qed.

(** Links depend only on properties and views, pointwise. *)
Lemma Links_ext K K' V V' :
  (∀ o p, K o p = K' o p) → (∀ o k, V o k = V' o k) → Links K V → Links K' V'.
Proof.
  intros HK HV [H1 H2 H3 H4].
  assert (∀ x p t q, ends_one_many K x p t q → ends_one_many K' x p t q) as He.
  { intros x p t q (E1 & p' & E2 & E3). split; [by rewrite <- HK|]. exists p'.
    split; [by rewrite <- HK|]. destruct E3 as [[-> ?]|[c ?]]; [left|right]; setoid_rewrite <- HK; eauto. }
  assert (∀ x p t q, ends_one_one K x p t q → ends_one_one K' x p t q) as He1.
  { unfold ends_one_one. intros *. by rewrite !HK. }
  assert (∀ x p t q, ends_many_many K x p t q → ends_many_many K' x p t q) as Hem.
  { unfold ends_many_many. intros *. by rewrite !HK. }
  split.
  - intros x p q w. rewrite <- HK, <- HV. intros Hp Hw.
    destruct (H1 _ _ _ _ Hp Hw) as [->|(t & ys & -> & ? & ? & ?)]; [by left|right].
    exists t, ys. rewrite <- HV. eauto.
  - intros t q p' w. rewrite <- HK, <- HV. intros Hp Hw.
    destruct (H2 _ _ _ _ Hp Hw) as (ys & -> & ? & Hm). exists ys. split_and!; [done..|].
    intros y Hy. destruct (Hm y Hy) as (x & p & -> & ? & ?). exists x, p. rewrite <- HV. eauto.
  - intros x p q w. rewrite <- HK, <- HV. intros Hp Hw.
    destruct (H3 _ _ _ _ Hp Hw) as [->|(y & -> & ? & ?)]; [by left|right].
    exists y. rewrite <- HV. eauto.
  - intros t q p' w. rewrite <- HK, <- HV. intros Hp Hw.
    destruct (H4 _ _ _ _ Hp Hw) as (ys & -> & Hm). exists ys. split_and!; [done..|].
    intros y Hy. destruct (Hm y Hy) as (x & p & -> & ? & ? & ?). exists x, p. rewrite <- HV. eauto 10.
Qed.

(** Lists held by the caller only (in no slot) are left alone. *)
Definition loose (h : heap) (l : nat) : Prop := ∀ o k, slot h o k ≠ Some (VList l).
Definition keeps (h h' : heap) : Prop := ∀ l xs,
  h_lists h !! l = Some xs → loose h l → h_lists h' !! l = Some xs ∧ loose h' l.
Lemma keeps_refl h : keeps h h.
Proof. done. Qed.
Lemma keeps_trans h1 h2 h3 : keeps h1 h2 → keeps h2 h3 → keeps h1 h3.
Proof. intros H1 H2 l xs Hl Hn. destruct (H1 _ _ Hl Hn). by apply H2. Qed.
Lemma keeps_hset o k v h : is_vlist v = false → keeps h (hset o k v h).
Proof.
  intros Hv l xs Hl Hn. split; [done|]. intros o' k'.
  destruct (decide ((o, k) = (o', k'))) as [[= <- <-]|Hne].
  - destruct (cls_of h o) eqn:Ec; [rewrite slot_hset by eauto; by intros [= ->]|].
    intros Hs. apply slot_cls in Hs. rewrite cls_hset, Ec in Hs. by destruct Hs.
  - rewrite slot_hset_ne by done. apply Hn.
Qed.
Lemma keeps_hnew o k xs h : keeps h (hnew o k xs h).
Proof.
  intros l ys Hl Hn. unfold hnew.
  assert (fresh_list h ≠ l) as Hne1.
  { intros <-. by rewrite fresh_list_None in Hl. }
  split; [by rewrite lists_hset, lists_lset_ne|]. intros o' k'.
  destruct (decide ((o, k) = (o', k'))) as [[= <- <-]|Hne].
  - destruct (cls_of h o) eqn:Ec; [rewrite slot_hset by eauto; congruence|].
    intros Hs. apply slot_cls in Hs. rewrite cls_hset, cls_lset, Ec in Hs. by destruct Hs.
  - rewrite slot_hset_ne by done. apply Hn.
Qed.
Lemma keeps_lset o k l xs h : slot h o k = Some (VList l) → keeps h (lset l xs h).
Proof.
  intros Hs l' ys Hl Hn. split; [|done]. rewrite lists_lset_ne; [done|].
  intros ->. by apply (Hn o k).
Qed.

(** What every modelled operation guarantees about the heap. *)
Definition Frame (h h' : heap) : Prop := Wf h' ∧ same_classes h h' ∧ keeps h h'.
Lemma Frame_refl h : Wf h → Frame h h.
Proof. done. Qed.
Lemma Frame_trans h1 h2 h3 : Frame h1 h2 → Frame h2 h3 → Frame h1 h3.
Proof.
  intros (?&?&?) (?&?&?). split_and!; [done|by eapply same_classes_trans|by eapply keeps_trans].
Qed.
Lemma Frame_hset h o k v : Wf h → is_Some (cls_of h o) → is_vlist v = false → Frame h (hset o k v h).
Proof. intros. split_and!; [by apply wf_hset|by apply same_classes_hset|by apply keeps_hset]. Qed.
Lemma Frame_hnew h o k xs : Wf h → is_Some (cls_of h o) → Frame h (hnew o k xs h).
Proof.
  intros. split_and!; [by apply wf_hnew| |by apply keeps_hnew].
  intros o'. unfold hnew. by rewrite cls_hset, cls_lset.
Qed.
Lemma Frame_lset h o k l xs : Wf h → slot h o k = Some (VList l) → Frame h (lset l xs h).
Proof. intros. split_and!; [by apply wf_lset|done|by eapply keeps_lset]. Qed.
Lemma Frame_cls h h' o : Frame h h' → cls_of h' o = cls_of h o.
Proof. intros (_&H&_). apply H. Qed.
Lemma Frame_wf h h' : Frame h h' → Wf h'.
Proof. by intros (?&_). Qed.
Lemma Frame_pkind S h h' o p : Frame h h' → pkind S h' o p = pkind S h o p.
Proof. intros (_&H&_). by apply pkind_same. Qed.

(** Storing a list the caller holds. *)
Lemma view_hset_list h o k l xs o' k' :
  is_Some (cls_of h o) → h_lists h !! l = Some xs →
  view (hset o k (VList l) h) o' k' = upd (view h) o k (OL xs) o' k'.
Proof.
  intros Hc Hl. unfold upd. destruct (decide (o' = o ∧ k' = k)) as [[-> ->]|Hne].
  - eapply view_list; [by apply slot_hset|done].
  - unfold view. rewrite slot_hset_ne; [done|naive_solver].
Qed.
Lemma wf_hset_list h o k l xs :
  Wf h → is_Some (cls_of h o) → h_lists h !! l = Some xs → loose h l → Wf (hset o k (VList l) h).
Proof.
  intros [Hl Hu] Hc Hx Hlo. split.
  - intros o' k' l'. destruct (decide ((o, k) = (o', k'))) as [[= <- <-]|Hne].
    + rewrite slot_hset by done. intros [= <-]. eauto.
    + rewrite slot_hset_ne by done. apply Hl.
  - intros o1 k1 o2 k2 l'.
    destruct (decide ((o, k) = (o1, k1))) as [[= <- <-]|Hne];
    destruct (decide ((o, k) = (o2, k2))) as [E|Hne2]; try (injection E as <- <-).
    + done.
    + rewrite slot_hset by done. rewrite slot_hset_ne by done.
      intros [= <-] ?. by destruct (Hlo o2 k2).
    + rewrite (slot_hset o) by done. rewrite slot_hset_ne by done.
      intros ? [= <-]. by destruct (Hlo o1 k1).
    + rewrite !slot_hset_ne by done. apply Hu.
Qed.
(** As [keeps], except for the list [l] that gets stored. *)
Definition keeps_but (l0 : nat) (h h' : heap) : Prop := ∀ l xs, l ≠ l0 →
  h_lists h !! l = Some xs → loose h l → h_lists h' !! l = Some xs ∧ loose h' l.
Definition Frame_but (l : nat) (h h' : heap) : Prop := Wf h' ∧ same_classes h h' ∧ keeps_but l h h'.
Lemma Frame_but_hset h o k l xs :
  Wf h → is_Some (cls_of h o) → h_lists h !! l = Some xs → loose h l →
  Frame_but l h (hset o k (VList l) h).
Proof.
  intros. split_and!; [by eapply wf_hset_list|by apply same_classes_hset|].
  intros l' xs' Hne Hl' Hn. split; [done|]. intros o' k'.
  destruct (decide ((o, k) = (o', k'))) as [[= <- <-]|Hne'].
  - rewrite slot_hset by done. congruence.
  - rewrite slot_hset_ne by done. apply Hn.
Qed.
Lemma Frame_Frame_but l h1 h2 h3 : Frame h1 h2 → Frame_but l h2 h3 → Frame_but l h1 h3.
Proof.
  intros (?&?&Hk) (?&?&Hk2). split_and!; [done|by eapply same_classes_trans|].
  intros l' xs ? Hl Hn. destruct (Hk _ _ Hl Hn). by apply Hk2.
Qed.
(** Creating a list. *)
Lemma new_list_Frame h xs :
  Wf h → Frame h (lset (fresh_list h) xs h) ∧ loose (lset (fresh_list h) xs h) (fresh_list h) ∧
  (∀ o k, view (lset (fresh_list h) xs h) o k = view h o k).
Proof.
  intros Hwf. assert (loose h (fresh_list h)) as Hlo.
  { intros o k E. destruct (wf_lists _ Hwf _ _ _ E) as [? E2]. by rewrite fresh_list_None in E2. }
  split_and!.
  - split_and!; [by apply wf_lset|done|]. intros l' ys Hl Hn. split; [|done].
    rewrite lists_lset_ne; [done|]. intros <-. by rewrite fresh_list_None in Hl.
  - intros o k. rewrite slot_lset. apply Hlo.
  - intros o k. unfold view. rewrite slot_lset. destruct (slot h o k) as [[]|] eqn:E; try done.
    simpl. rewrite lookup_insert_ne; [done|]. intros <-. by apply (Hlo o k).
Qed.
Lemma Frame_but_fresh h h' xs :
  Wf h → Frame_but (fresh_list h) (lset (fresh_list h) xs h) h' → Frame h h'.
Proof.
  intros Hwf (?&?&Hk). split_and!; [done|done|]. intros l ys Hl Hn.
  apply Hk.
  - intros ->. by rewrite fresh_list_None in Hl.
  - rewrite lists_lset_ne; [done|]. intros <-. by rewrite fresh_list_None in Hl.
  - done.
Qed.

(** A loop whose body leaves the list alone visits the elements it had at the
    start. *)
Lemma live_same (l : nat) (body : val → M unit) (I : heap → Prop) xs :
  (∀ x h, x ∈ xs → I h → h_lists h !! l = Some xs → I (snd (body x h)) ∧ h_lists (snd (body x h)) !! l = Some xs) →
  ∀ n i h, I h → h_lists h !! l = Some xs → length xs ≤ n + i → live_from n l i body h = for_each (drop i xs) body h.
Proof.
  intros Hb n. induction n as [|n IH]; intros i h HI Hl Hn; cbn [live_from]; rewrite Hl.
  - rewrite lookup_ge_None_2 by lia. by rewrite drop_ge by lia.
  - destruct (xs !! i) as [x|] eqn:E.
    + rewrite (drop_S _ _ _ E). cbn [for_each]. unfold bind.
      destruct (Hb x h) as [HI' Hl']; [by eapply elem_of_list_lookup_2|done..|].
      destruct (body x h) as [[[]|e] h']; [|done]. apply IH; [done..|lia].
    + apply lookup_ge_None in E. by rewrite drop_ge by lia.
Qed.
(** [if v not in r._p: r._p.append(v)] *)
Notation append_new v p := (λ r,
  let* lst := read_key r (Priv p) in
  let* b := contains v lst in
  if b : bool then ret tt else append lst v).
Lemma append_new_other v p x h l xs : loose h l → h_lists h !! l = Some xs →
  loose (snd (append_new v p x h)) l ∧ h_lists (snd (append_new v p x h)) !! l = Some xs.
Proof.
  intros Hlo Hl. unfold bind. destruct x as [| | | | |o|]; try done. cbn [read_key].
  destruct (slot h o (Priv p)) as [w|] eqn:Es; [|done]. unfold contains. destruct w as [| | | | | |l']; try done.
  assert (l' ≠ l) as Hne by (intros ->; by eapply Hlo).
  destruct (h_lists h !! l') as [ys|] eqn:El; [|done]. destruct (bool_decide _); [done|].
  unfold append. rewrite El. cbn [snd]. split; [done|]. by rewrite lists_lset_ne.
Qed.
Lemma live_append_same v p l xs h : loose h l → h_lists h !! l = Some xs →
  live_each (VList l) (append_new v p) h = for_each xs (append_new v p) h.
Proof.
  intros Hlo Hl. unfold live_each. rewrite Hl.
  rewrite (live_same l (append_new v p) (λ h, loose h l) xs); [done| |done|done|lia].
  intros x h' _ Hlo' Hl'. by apply append_new_other.
Qed.
