(** Facts for the properties about second descriptions. *)
From Coq Require Import String ZArith.
From stdpp Require Import prelude gmap.
From Verif Require Import PyStr PyHeap Schema Assoc AssocSpec HeapFacts LinksFacts AssocFacts HistorySpec TableSpec Tables Reader ReaderSpec ReaderFacts
  FrameFacts CreateFacts StatementFacts ReaderTabs ReadSound ReadStepFacts ReadDocFacts DocSpec DocFacts WriteSpec WriteFacts SecondSpec.

Section ids.
Context (T : schema).
Notation uuid := (u "UUID").
Lemma same_id_str h h' v i : same_id T h h' v (VStr i) → v = VStr i.
Proof. intros [?|(? & ? & ? & _ & ? & _)]; congruence. Qed.
Lemma si_uuid h h' o i : SameIds T h h' → sees T h o uuid (VStr i) → sees T h' o uuid (VStr i).
Proof. intros HI H. destruct (si_to _ _ _ HI _ _ _ H) as (v' & Hv & [->|(? & ? & ? & ? & _)]); done. Qed.
Lemma si_uuid' h h' o i : SameIds T h h' → sees T h' o uuid (VStr i) → sees T h o uuid (VStr i).
Proof. intros HI H. destruct (si_from _ _ _ HI _ _ _ H) as (v & Hv & ->%same_id_str). done. Qed.
Lemma SameIds_refl h : SameIds T h h.
Proof. split; [done| |]; intros o a v H; exists v; (split; [done|by left]). Qed.
Lemma SameIds_sym h h' : SameIds T h h' → SameIds T h' h.
Proof.
  intros HI. assert (∀ v v', same_id T h h' v v' → same_id T h' h v' v) as Hs.
  { intros v v' [->|(y & y' & i & -> & -> & H1 & H2)]; [by left|]. right. exists y', y, i. done. }
  split.
  - intros o. by rewrite (si_cls _ _ _ HI).
  - intros o a v H. destruct (si_from _ _ _ HI _ _ _ H) as (v' & ? & ?). eauto.
  - intros o a v H. destruct (si_to _ _ _ HI _ _ _ H) as (v' & ? & ?). eauto.
Qed.
Lemma same_id_trans h1 h2 h3 a b c : SameIds T h1 h2 → SameIds T h2 h3 → same_id T h1 h2 a b → same_id T h2 h3 b c → same_id T h1 h3 a c.
Proof.
  intros H12 H23 [->|(y & y' & i & -> & -> & H1 & H2)] [->|(z & z' & j & E & -> & H3 & H4)].
  - by left.
  - subst a. right. exists z, z', j. split_and!; try done. by eapply si_uuid'.
  - right. exists y, y', i. split_and!; try done. by eapply si_uuid.
  - injection E as ->. right. exists y, z', i. split_and!; try done. pose proof (sees_det _ _ _ _ _ _ H2 H3) as [= ->]. done.
Qed.
Lemma SameIds_trans h1 h2 h3 : SameIds T h1 h2 → SameIds T h2 h3 → SameIds T h1 h3.
Proof.
  intros H12 H23. split.
  - intros o. by rewrite (si_cls _ _ _ H23), (si_cls _ _ _ H12).
  - intros o a v H. destruct (si_to _ _ _ H12 _ _ _ H) as (v2 & Hv2 & E2). destruct (si_to _ _ _ H23 _ _ _ Hv2) as (v3 & Hv3 & E3).
    exists v3. split; [done|]. by eapply same_id_trans.
  - intros o a v H. destruct (si_from _ _ _ H23 _ _ _ H) as (v2 & Hv2 & E2). destruct (si_from _ _ _ H12 _ _ _ Hv2) as (v3 & Hv3 & E3).
    exists v3. split; [done|]. by eapply same_id_trans.
Qed.
End ids.

(** *** One assignment *)
Section step.
Context (T : schema) (f : nat).
Notation uuid := (u "UUID").
(** What an attribute evaluates to, from the views. *)
Definition seen (h : heap) (o : nat) (a : name) (k : option prop) (v : val) : Prop :=
  match k with
  | Some (PAlias p c) => (∃ w, view h o (Priv p) = Some (OV w) ∧ (val_cls h w = Some c ∧ v = w ∨ val_cls h w ≠ Some c ∧ v = VNone)) ∨
      (∃ ys, view h o (Priv p) = Some (OL ys)) ∧ v = VNone
  | Some _ => view h o (Priv a) = Some (OV v)
  | None => view h o (key_of a) = Some (OV v)
  end.
Lemma sees_seen h o a v : Wf h → sees T h o a v ↔ ∃ ck, cls_of h o = Some ck ∧ seen h o a (lookup_prop T ck a) v.
Proof.
  intros Hwf. unfold sees, seen. split; intros (ck & Hc & H); exists ck; (split; [done|]); destruct (lookup_prop T ck a) as [[]|]; try done.
  - destruct H as (w & Hw & H). destruct (is_vlist w) eqn:Ew.
    + destruct w as [| | | | | |l]; try done. right. destruct (wf_lists _ Hwf _ _ _ Hw) as [xs Hl]. split; [exists xs; by eapply HeapFacts.view_list|].
      destruct H as [[? _]|[_ ?]]; done.
    + left. exists w. split; [by apply HeapFacts.view_slot|done].
  - destruct H as [(w & Hw & H)|[[ys Hy] ->]].
    + exists w. split; [by apply view_OV|done].
    + destruct (view_OL _ _ _ _ Hy) as (l & Hl & _). exists (VList l). split; [done|]. right. done.
Qed.
Lemma repoints_step h h' : Sound T h → repoints T (S f) h h' → Sound T h' ∧ SameIds T h h'.
Proof.
  intros HS (x & p & q & y & y' & i & ck & Hk & Hx & Hy & Hy' & Hi & Hi' & E).
  pose proof (so_consistent _ _ HS) as HC. pose proof HC as [Hwf HL].
  destruct (lk_single _ _ HL _ _ _ _ Hk Hx) as [?|(y0 & ys & [= <-] & Hends & Hvy & Hin)]; [done|].
  destruct Hends as (_ & p' & Hky & Hres).
  assert (pkind T h y' q = Some (PManyOne p')) as Hky' by (unfold pkind in *; by rewrite Hy'; rewrite Hy in Hky).
  destruct (so_slots _ _ HS _ _ _ Hky') as [w' Hw']. destruct (lk_coll _ _ HL _ _ _ _ Hky' Hw') as (ys' & -> & _ & _).
  destruct (set_one_many_effect T f h x p q (VRef y) (VRef y') HC Hk (view_OV _ _ _ _ Hx)) as (h2 & E2 & HF & HSS).
  { right. exists y', ys'. split; [done|]. split; [split; [done|eauto]|done]. }
  rewrite E in E2. injection E2 as <-.
  assert (Consistent T h') as HC'. { refine (Consistent_SetSingle T h h' x p q (VRef y) (VRef y') HC Hk (view_OV _ _ _ _ Hx) _ HF HSS).
    right. exists y', ys'. split; [done|]. split; [split; [done|eauto]|done]. }
  destruct HF as (Hwf' & Hsc & _). assert (∀ o, cls_of h' o = cls_of h o) as Hcl by (intros; by rewrite Hsc).
  assert (∀ o r, pkind T h' o r = pkind T h o r) as HK by (intros; unfold pkind; by rewrite Hcl).
  (* collections stay collections, other values stay *)
  assert (∀ o k, (o, k) ≠ (x, Priv p) → view h' o k = view h o k ∨ ∃ zs zs', view h o k = Some (OL zs) ∧ view h' o k = Some (OL zs')) as Hfr.
  { intros o k Hne. destruct (decide (k = Priv q ∧ (o = y ∨ o = y'))) as [[-> Ho]|Hno].
    - right. destruct (decide (y = y')) as [->|Hyy].
      { assert (o = y') as -> by (by destruct Ho). exists ys', (filter (λ z, z ≠ VRef x) ys' ++ [VRef x]). split; [done|]. by apply (ss_new _ _ _ _ _ _ HSS). }
      destruct (decide (o = y')) as [->|Hn].
      { exists ys', (filter (λ z, z ≠ VRef x) ys' ++ [VRef x]). split; [done|]. by apply (ss_new _ _ _ _ _ _ HSS). }
      assert (o = y) as -> by (by destruct Ho). exists ys, (filter (λ z, z ≠ VRef x) ys). split; [done|].
      apply (ss_old _ _ _ _ _ _ HSS y ys); [done|congruence|done].
    - left. apply (ss_frame _ _ _ _ _ _ HSS); [done|]. intros ->. split; [intros [= <-]; apply Hno; eauto|]. rewrite Hx. intros [= <-]. apply Hno; eauto. }
  pose proof (ss_self _ _ _ _ _ _ HSS) as Hx'.
  split.
  { split; [done| |].
    - intros o r k Hkk. rewrite HK in Hkk. pose proof (so_slots _ _ HS _ _ _ Hkk) as Hso.
      destruct (decide ((o, r) = (x, p))) as [[= -> ->]|Hne]; [destruct k; try done; by rewrite Hx'|].
      destruct (Hfr o (Priv r)) as [->|(? & ? & _ & ->)]; [congruence|done|by destruct k].
    - intros o c a w Hc Hpl Hv. rewrite Hcl in Hc. apply (so_plain _ _ HS o c a w Hc Hpl).
      destruct (Hfr o (Pub a)) as [<-|(? & ? & Hz & Hz')]; [done|done|].
      exfalso. by destruct (so_plain _ _ HS _ _ _ _ Hc Hpl Hz) as (? & ? & _). }
  assert (∀ w, val_cls h' w = val_cls h w) as Hvc by (intros []; try done; apply Hcl).
  assert (∀ o k v, view h o k = Some (OV v) → (o, k) = (x, Priv p) ∧ v = VRef y ∨ (o, k) ≠ (x, Priv p) ∧ view h' o k = Some (OV v)) as H1.
  { intros o k v Hv. destruct (decide ((o, k) = (x, Priv p))) as [[= -> ->]|Hne]; [left; split; [done|congruence]|]. right. split; [done|].
    destruct (Hfr o k Hne) as [->|(? & ? & Hz & _)]; [done|]. congruence. }
  assert (∀ o k v, view h' o k = Some (OV v) → (o, k) = (x, Priv p) ∧ v = VRef y' ∨ (o, k) ≠ (x, Priv p) ∧ view h o k = Some (OV v)) as H2.
  { intros o k v Hv. destruct (decide ((o, k) = (x, Priv p))) as [[= -> ->]|Hne]; [left; split; [done|congruence]|]. right. split; [done|].
    destruct (Hfr o k Hne) as [<-|(? & ? & _ & Hz)]; [done|]. congruence. }
  assert (∀ o k zs, view h o k = Some (OL zs) → ∃ zs', view h' o k = Some (OL zs')) as L1.
  { intros o k zs Hv. destruct (Hfr o k) as [->|(? & ? & _ & ->)]; [congruence|eauto|eauto]. }
  assert (∀ o k zs, view h' o k = Some (OL zs) → ∃ zs', view h o k = Some (OL zs')) as L2.
  { intros o k zs Hv. destruct (Hfr o k) as [<-|(? & ? & -> & _)]; [congruence|eauto|eauto]. }
  assert (∀ o i, sees T h o uuid (VStr i) → sees T h' o uuid (VStr i)) as Hu.
  { intros o j (c & Hc & Hs)%sees_seen; [|done]. apply sees_seen; [done|]. exists c. rewrite Hcl. split; [done|]. unfold seen in *.
    destruct (lookup_prop T c uuid) as [[]|]; try (destruct (H1 _ _ _ Hs) as [[_ ?]|[_ ?]]; done).
    destruct Hs as [(w & Hw & [[Hwc <-]|[_ ?]])|[_ ?]]; try done. }
  assert (same_id T h h' (VRef y) (VRef y')) as Hsame by (right; exists y, y', i; auto).
  split; [done| |].
  - intros o a v (c & Hc & Hs)%sees_seen; [|done].
    cut (∃ v', seen h' o a (lookup_prop T c a) v' ∧ same_id T h h' v v').
    { intros (v' & Hv' & ?). exists v'. split; [|done]. apply sees_seen; [done|]. exists c. by rewrite Hcl. }
    unfold seen in *. destruct (lookup_prop T c a) as [[q1|q1|q1|q1| |q1|tg c1]|];
      try (destruct (H1 _ _ _ Hs) as [[[= -> E1] ->]|[_ ?]]; [|by exists v; split; [|left]]; rewrite E1; by exists (VRef y')).
    destruct Hs as [(w & Hw & Hs)|[[zs Hz] ->]]; [|exists VNone; split; [right; split; [by eapply L1|done]|by left]].
    destruct (H1 _ _ _ Hw) as [[[= -> ->] ->]|[_ Hw2]].
    + destruct Hs as [[Hs ->]|[Hs ->]].
      * exists (VRef y'). split; [|done]. left. exists (VRef y'). split; [done|]. left. split; [|done]. cbn [val_cls] in *. by rewrite Hcl, Hy', <- Hy.
      * exists VNone. split; [|by left]. left. exists (VRef y'). split; [done|]. right. split; [|done]. cbn [val_cls] in *. by rewrite Hcl, Hy', <- Hy.
    + exists v. split; [|by left]. left. exists w. by rewrite Hvc.
  - intros o a v (c & Hc & Hs)%sees_seen; [|done]. rewrite Hcl in Hc.
    cut (∃ v', seen h o a (lookup_prop T c a) v' ∧ same_id T h h' v' v).
    { intros (v' & Hv' & ?). exists v'. split; [|done]. apply sees_seen; [done|]. by exists c. }
    unfold seen in *. destruct (lookup_prop T c a) as [[q1|q1|q1|q1| |q1|tg c1]|];
      try (destruct (H2 _ _ _ Hs) as [[[= -> E1] ->]|[_ ?]]; [|by exists v; split; [|left]]; rewrite E1; by exists (VRef y)).
    destruct Hs as [(w & Hw & Hs)|[[zs Hz] ->]]; [|exists VNone; split; [right; split; [by eapply L2|done]|by left]].
    destruct (H2 _ _ _ Hw) as [[[= -> ->] ->]|[_ Hw2]].
    + destruct Hs as [[Hs ->]|[Hs ->]].
      * exists (VRef y). split; [|done]. left. exists (VRef y). split; [done|]. left. split; [|done]. cbn [val_cls] in *. by rewrite Hy, <- Hy', <- Hcl.
      * exists VNone. split; [|by left]. left. exists (VRef y). split; [done|]. right. split; [|done]. cbn [val_cls] in *. by rewrite Hy, <- Hy', <- Hcl.
    + exists v. split; [|by left]. left. exists w. by rewrite <- Hvc.
Qed.
Lemma repoints_all h h' : Sound T h → rtc (repoints T (S f)) h h' → Sound T h' ∧ SameIds T h h'.
Proof.
  intros HS H. induction H as [h|h1 h2 h3 H1 H2 IH]; [split; [done|apply SameIds_refl]|].
  destruct (repoints_step _ _ HS H1) as [HS2 HI2]. destruct (IH HS2) as [HS3 HI3]. split; [done|]. by eapply SameIds_trans.
Qed.
End step.

(** *** Reads *)
Section reading.
Context (t : schema) (pm : list (name * name)) (Ht : (t, pm) ∈ tables) (base rdf : pystr) (f : nat) (pf : pystr → option pystr).
(** No statement reaches an object that is not in the dictionary. *)
Lemma exec_unlisted d a o ck sts : not_listed d o → plain_attr t ck a →
  ∀ h h' v, cls_of h o = Some ck → slot h o (Pub a) = Some v → exec base rdf t (S f) pf d sts h = (inl tt, h') →
  slot h' o (Pub a) = Some v ∧ cls_of h' o = Some ck.
Proof using Ht.
  intros Hno Hpl. pose proof (tables_far t pm ck a Ht Hpl) as Hfar.
  induction sts as [|[i e] sts IH]; intros h h' v Hc Hs; [by intros [= <-]|].
  unfold exec. cbn [for_each]. fold (exec base rdf t (S f) pf d). unfold exec1 at 1. cbn [fst snd]. unfold bind.
  destruct (assoc i d) as [vi|] eqn:Ei; [|done]. destruct vi as [| | | | |oi|]; try done.
  destruct (set_property t (S f) pf base rdf d oi e h) as [[[]|x] h1] eqn:E1; [|done]. intros E2.
  assert (oi ≠ o) as Hne by (intros ->; by apply (Hno i)).
  pose proof (set_property_other t base rdf f pf d oi e o a h (Some v) Hfar (or_introl Hne)) as Ho. rewrite E1 in Ho. cbn [snd] in Ho.
  destruct Ho as [Hc1 Hs1]; [split; [by rewrite Hc|done]|].
  assert (cls_of h1 o = Some ck) as Hc1'.
  { pose proof (pres_set_property t (classes_kept h) (λ _ _, True)) as Hp.
    assert (classes_kept h h1) as Hkc.
    { change h1 with (snd ((inl tt : unit + exn), h1)). rewrite <- E1. apply Hp; try done.
      - intros o1 k1 v1 h2 H1 _ o' Ho'. rewrite cls_hset. by apply H1.
      - intros h2 ck1 H1. split; [|done]. intros o' Ho'. rewrite cls_alloc; [by apply H1|].
        apply fresh_obj_alive. by rewrite (H1 o' Ho'). }
    rewrite (Hkc o); [done|]. by rewrite Hc. }
  by apply (IH h1 h' v Hc1' Hs1 E2).
Qed.
Context (err : bool) (root : elem) (evs : list event) (d : dict) (h : heap) (d' : dict) (h' : heap).
Context (HS : Sound t h) (Hd : dict_alive d h) (Hf : foreign_root base evs).
Context (Hr : reads base rdf t pm (S f) pf err root evs d h = (None, d', h')).
Lemma second_unlisted id o : assoc id d = Some (VRef o) → only_key d id o → is_Some (declared_class base rdf pm evs id) → not_listed d' o.
Proof using Ht HS Hd Hf Hr.
  intros Ho Hu [k Hk] id' Hin. destruct (reads_returns t pm Ht base rdf f pf err root evs d h d' h' (proj1 (so_consistent _ _ HS)) Hf Hr) as (h1 & _ & HC & _).
  destruct (Hd _ _ Ho) as (? & [= <-] & [ck Hck]).
  destruct (declared_class base rdf pm evs id') as [k'|] eqn:Hk'.
  - destruct (cr_new _ _ _ _ _ _ HC id' k' Hk') as (o2 & Ho2 & Hn & _). congruence.
  - rewrite (cr_old _ _ _ _ _ _ HC id' Hk') in Hin. apply Hu in Hin. congruence.
Qed.
(** An object that is not in the resulting dictionary keeps its attributes. *)
Lemma unlisted_keeps o ck a v : not_listed d' o → cls_of h o = Some ck → plain_attr t ck a → view h o (Pub a) = Some (OV v) →
  cls_of h' o = Some ck ∧ view h' o (Pub a) = Some (OV v).
Proof using Ht HS Hd Hf Hr.
  intros Hno Hck Hpl Hv. destruct (reads_returns t pm Ht base rdf f pf err root evs d h d' h' (proj1 (so_consistent _ _ HS)) Hf Hr) as (h1 & _ & HC & Hex).
  destruct (cr_frame _ _ _ _ _ _ HC o (Pub a)) as [Hc1 Hv1]; [by rewrite Hck|]. rewrite Hck in Hc1. rewrite Hv in Hv1.
  pose proof (view_OV_nolist _ _ _ _ Hv1) as Hnl. apply view_OV in Hv1.
  destruct (exec_unlisted d' a o ck _ Hno Hpl h1 h' v Hc1 Hv1 Hex) as [Hs Hc]. split; [done|]. by apply HeapFacts.view_slot.
Qed.
(** An object of the dictionary that the document does not describe takes the
    statements made about its identifier. *)
Lemma undescribed_takes id o ck a v0 : assoc id d = Some (VRef o) → only_key d id o → declared_class base rdf pm evs id = None →
  cls_of h o = Some ck → plain_attr t ck a → view h o (Pub a) = Some (OV v0) →
  (∀ e r, e ∈ about base rdf pm evs d id a → resource rdf e = Some r → has_prefix (u "#") r = false) →
  assoc id d' = Some (VRef o) ∧ cls_of h' o = Some ck ∧ ∃ v, takes_all rdf pf v0 (about base rdf pm evs d id a) v ∧ view h' o (Pub a) = Some (OV v).
Proof using Ht HS Hd Hf Hr.
  intros Ho Hu Hk Hck Hpl Hv Hno. destruct (reads_returns t pm Ht base rdf f pf err root evs d h d' h' (proj1 (so_consistent _ _ HS)) Hf Hr) as (h1 & _ & HC & Hex).
  assert (assoc id d' = Some (VRef o)) as Ho' by (by rewrite (cr_old _ _ _ _ _ _ HC id Hk)).
  assert (only_key d' id o) as Hu'.
  { intros id' Hin. destruct (declared_class base rdf pm evs id') as [k'|] eqn:Hk'.
    - destruct (cr_new _ _ _ _ _ _ HC id' k' Hk') as (o2 & Ho2 & Hn & _). congruence.
    - apply Hu. by rewrite <- (cr_old _ _ _ _ _ _ HC id' Hk'). }
  destruct (so_plain _ _ HS _ _ _ _ Hck Hpl Hv) as (? & [= <-] & Hpv).
  destruct (cr_frame _ _ _ _ _ _ HC o (Pub a)) as [Hc1 Hv1]; [by rewrite Hck|]. rewrite Hck in Hc1. rewrite Hv in Hv1.
  pose proof (view_OV_nolist _ _ _ _ Hv1) as Hnl. apply view_OV in Hv1.
  destruct (exec_attribute t pm Ht base rdf f pf d' id a o ck _ Ho' Hu' Hpl Hno h1 h' v0 Hc1 Hv1) as (v & Hta & Hs & Hpv2 & Hc'); [by destruct v0|exact Hex|].
  split; [done|]. split; [done|]. exists v. split; [exact Hta|]. apply HeapFacts.view_slot; [done|by destruct v].
Qed.
End reading.
