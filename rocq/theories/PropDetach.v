(** C93: taking an object out of a graph. *)
From Coq Require Import String.
From stdpp Require Import prelude gmap.
From Verif Require Import PyStr PyHeap Schema Assoc AssocSpec HeapFacts LinksFacts AssocFacts AddRemoveFacts
  CtorFacts History HistorySpec HistoryFacts GraphCheck AdmCheck AssocExtra Names TabCIM14 TabCIM15 TabProfiles Tables
  TableSpec TableFacts Demo DetachSpec PropAssoc.
From Verif Require CreateFacts.

Section detach.
Context (T : schema) (Hde : distinct_ends T) (f : nat) (o : nat).
Notation F := (S (S (S f))).
Notation K h := (pkind T h).

Record Loosened (h h' : heap) : Prop := {
  lo_classes : same_classes h h';
  lo_inv : inv T h';
  lo_other : ∀ x k, end_key T h x k = false → view h' x k = view h x k;
  lo_end : ∀ x k, x ≠ o → end_key T h x k = true → forget o <$> view h' x k = forget o <$> view h x k;
  lo_shape : ∀ k, end_key T h o k = true → emptied <$> view h' o k = emptied <$> view h o k;
  lo_empty : ∀ k w, end_key T h o k = true → view h o k = Some (emptied w) → view h' o k = Some (emptied w)
}.
Lemma end_key_same h h' x k : same_classes h h' → end_key T h' x k = end_key T h x k.
Proof. intros H. unfold end_key. destruct k; [done|]. by rewrite (pkind_same T h h'). Qed.
Lemma Loosened_refl h : inv T h → Loosened h h.
Proof. by split. Qed.
Lemma Loosened_trans h1 h2 h3 : Loosened h1 h2 → Loosened h2 h3 → Loosened h1 h3.
Proof.
  intros H1 H2. assert (∀ x k, end_key T h2 x k = end_key T h1 x k) as He by (intros; apply end_key_same, H1). split.
  - eapply same_classes_trans; [apply H1|apply H2].
  - apply H2.
  - intros x k Hk. rewrite (lo_other _ _ H2) by by rewrite He. by apply (lo_other _ _ H1).
  - intros x k Hx Hk. rewrite (lo_end _ _ H2) by (done || by rewrite He). by apply (lo_end _ _ H1).
  - intros k Hk. rewrite (lo_shape _ _ H2) by by rewrite He. by apply (lo_shape _ _ H1).
  - intros k w Hk Hw. apply (lo_empty _ _ H2); [by rewrite He|]. by apply (lo_empty _ _ H1).
Qed.
Lemma forget_forget w : forget o (forget o w) = forget o w.
Proof.
  destruct w as [v|ys]; cbn; [case_decide as E; cbn; [done|by rewrite decide_False]|]. f_equal. apply filter_all. intros y [Hy _]%elem_of_list_filter. exact Hy.
Qed.
Lemma emptied_forget w : emptied (forget o w) = emptied w.
Proof. destruct w as [v|ys]; cbn; [by case_decide|done]. Qed.
Lemma forget_emptied w : forget o (emptied w) = emptied w.
Proof. by destruct w. Qed.
Lemma emptied_emptied w : emptied (emptied w) = emptied w.
Proof. by destruct w. Qed.
(** Enough for a step: every place is as before, or an end of [o] that may be
    emptier now, or an end [o] is taken out of. *)
Lemma Loosened_intro h h' : same_classes h h' → inv T h' →
  (∀ x k, view h' x k = view h x k ∨
     end_key T h x k = true ∧ ∃ w, view h x k = Some w ∧
       (x = o ∧ (∃ w', view h' x k = Some w' ∧ emptied w' = emptied w ∧ (w = emptied w → w' = w)) ∨ view h' x k = Some (forget o w))) →
  Loosened h h'.
Proof.
  intros Hs Hi H. split; [done|done| | | |].
  - intros x k Hk. destruct (H x k) as [?|[? _]]; [done|congruence].
  - intros x k Hx Hk. destruct (H x k) as [->|(_ & w & -> & [[? _]| ->])]; [done|done|]. cbn. by rewrite forget_forget.
  - intros k Hk. destruct (H o k) as [->|(_ & w & -> & [(_ & w' & -> & E & _)| ->])]; [done|cbn; by rewrite E|]. cbn. by rewrite emptied_forget.
  - intros k w Hk Hw. destruct (H o k) as [->|(_ & w1 & Hw' & [(_ & w' & -> & E & E2)| ->])]; [done|..]; rewrite Hw in Hw'; injection Hw' as <-.
    + f_equal. apply E2. by rewrite emptied_emptied.
    + by rewrite forget_emptied.
Qed.

Lemma inv_of_step h c h' : inv T h → adm_op T F h c → run_op T F c h = (inl tt, h') → inv T h'.
Proof using Hde.
  intros Hi Ha E. destruct (adm_op_inv T Hde f h c Hi Ha) as (h2 & E2 & Hi2). rewrite E in E2. by injection E2 as <-.
Qed.
Lemma clear_single h p q : inv T h → K h o p = Some (POneMany q) → is_Some (view h o (Priv p)) →
  ∃ h', clear T F o p h = (inl tt, h') ∧ Loosened h h' ∧ view h' o (Priv p) = Some (OV VNone).
Proof using Hde.
  intros Hi Hk Hv.
  assert (has_slot h o p) as Hs. { unfold view in Hv. unfold has_slot. destruct (slot h o (Priv p)); [by eexists|by destruct Hv]. }
  destruct (C01_set_single T (S (S f)) h o p q VNone (proj1 Hi) Hk Hs) as (h' & E & Hsc & HS & HC); [by left|].
  exists h'. unfold clear. rewrite Hk. split; [exact E|]. split; [|apply (ss_self _ _ _ _ _ _ HS)].
  apply Loosened_intro; [done| |].
  { eapply (inv_of_step h (OSet o p VNone)); [done| |exact E]. cbn. unfold adm_set. rewrite Hk. split; [done|]. by left. }
  destruct Hv as [w0 Hw0]. pose proof (lk_single _ _ (proj2 (proj1 Hi)) _ _ _ _ Hk Hw0) as Hl.
  intros x k. destruct (decide ((x, k) = (o, Priv p))) as [[= -> ->]|Hne].
  { right. split; [cbn; by rewrite Hk|]. exists w0. split; [done|]. left. split; [done|]. exists (OV VNone). split; [apply (ss_self _ _ _ _ _ _ HS)|].
    destruct Hl as [-> |(t & ys & -> & _)]; done. }
  destruct (decide (k = Priv q ∧ view h o (Priv p) = Some (OV (VRef x)))) as [[-> Ho]|Hn].
  - right. rewrite Hw0 in Ho. injection Ho as ->. destruct Hl as [?|(t & ys & [= <-] & [_ (p' & Hq & _)] & Hys & _)]; [done|].
    split; [cbn; by rewrite Hq|]. exists (OL ys). split; [done|]. right. by apply (ss_old _ _ _ _ _ _ HS).
  - left. apply (ss_frame _ _ _ _ _ _ HS); [done|]. intros ->. split; [done|]. naive_solver.
Qed.
Lemma clear_pair h p q : inv T h → K h o p = Some (POneOne q) → is_Some (view h o (Priv p)) →
  ∃ h', clear T F o p h = (inl tt, h') ∧ Loosened h h' ∧ view h' o (Priv p) = Some (OV VNone).
Proof using Hde.
  intros Hi Hk Hv.
  assert (has_slot h o p) as Hs. { unfold view in Hv. unfold has_slot. destruct (slot h o (Priv p)); [by eexists|by destruct Hv]. }
  assert (p ≠ q) as Hpq by (intros ->; by destruct (pkind_ends T Hde h o q)).
  destruct (C02_set_pair T (S f) h o p q VNone (proj1 Hi) Hpq Hk Hs) as (h' & E & Hsc & HS & HC); [by left|].
  exists h'. unfold clear. rewrite Hk. split; [exact E|]. split; [|apply (sp_self _ _ _ _ _ _ HS)].
  apply Loosened_intro; [done| |].
  { eapply (inv_of_step h (OSet o p VNone)); [done| |exact E]. cbn. unfold adm_set. rewrite Hk. split; [done|]. by left. }
  destruct Hv as [w0 Hw0]. pose proof (lk_one_one _ _ (proj2 (proj1 Hi)) _ _ _ _ Hk Hw0) as Hl.
  intros x k. destruct (decide ((x, k) = (o, Priv p))) as [[= -> ->]|Hne].
  { right. split; [cbn; by rewrite Hk|]. exists w0. split; [done|]. left. split; [done|]. exists (OV VNone). split; [apply (sp_self _ _ _ _ _ _ HS)|].
    destruct Hl as [-> |(t & -> & _)]; done. }
  destruct (decide (k = Priv q ∧ view h o (Priv p) = Some (OV (VRef x)))) as [[-> Ho]|Hn].
  - right. rewrite Hw0 in Ho. injection Ho as ->. destruct Hl as [?|(t & [= <-] & [_ Hq] & Hys)]; [done|].
    split; [cbn; by rewrite Hq|]. exists (OV (VRef o)). split; [done|]. right. cbn. rewrite decide_True by done.
    by apply (sp_old _ _ _ _ _ _ HS).
  - left. apply (sp_frame _ _ _ _ _ _ HS); [done| |done]. intros ->. split; [done|]. naive_solver.
Qed.
Lemma clear_coll h p q : inv T h → K h o p = Some (PManyOne q) → is_Some (view h o (Priv p)) →
  ∃ h', clear T F o p h = (inl tt, h') ∧ Loosened h h' ∧ view h' o (Priv p) = Some (OL []).
Proof using Hde.
  intros Hi Hk Hv.
  assert (has_slot h o p) as Hs. { unfold view in Hv. unfold has_slot. destruct (slot h o (Priv p)); [by eexists|by destruct Hv]. }
  destruct (new_list_Frame h []) as (HF & Hlo & HV); [apply Hi|]. set (h1 := lset (fresh_list h) [] h) in *.
  assert (∀ x r, K h1 x r = K h x r) as HK by done.
  destruct (C07_assign_collection T f h1 o p q (fresh_list h) []) as (h' & E & Hsc & HS & HC); [apply inv_new_list, Hi|by rewrite HK|done| |done|constructor|..].
  { unfold h1, lset. cbn. apply lookup_insert. }
  { intros y []%elem_of_nil. }
  exists h'. unfold clear. rewrite Hk. split; [exact E|]. split; [|apply (sc_self _ _ _ _ _ _ _ HS)].
  apply Loosened_intro; [done| |].
  { eapply (inv_of_step h (OSetList o p [])); [done| |exact E]. cbn. unfold adm_set_list. rewrite Hk. split; [done|]. split; [constructor|]. intros y []%elem_of_nil. }
  destruct Hv as [w0 Hw0]. destruct (lk_coll _ _ (proj2 (proj1 Hi)) _ _ _ _ Hk Hw0) as (xs & -> & _ & Hxs).
  intros x k. destruct (decide ((x, k) = (o, Priv p))) as [[= -> ->]|Hne].
  { right. split; [cbn; by rewrite Hk|]. exists (OL xs). split; [done|]. left. split; [done|]. exists (OL []). split; [apply (sc_self _ _ _ _ _ _ _ HS)|]. split; [done|]. by intros ->. }
  destruct (decide (VRef x ∈ xs)) as [Hin|Hnin].
  - destruct (Hxs _ Hin) as (x' & pz & [= <-] & Hez & Hvz). destruct (decide (k = Priv pz)) as [-> |Hkz].
    + right. split; [cbn; destruct Hez as [-> _]; done|]. exists (OV (VRef o)). split; [done|]. right. cbn. rewrite decide_True by done.
      eapply (sc_old _ _ _ _ _ _ _ HS); [by rewrite HV|done|apply not_elem_of_nil|done].
    + left. rewrite <- (HV x k). apply (sc_frame _ _ _ _ _ _ _ HS); [done|by intros []%elem_of_nil|].
      intros xs' pz' -> Hxs' _ Hez'. apply Hkz. f_equal. destruct Hez as [_ (r1 & Hr1 & Hres1)], Hez' as [_ (r2 & Hr2 & Hres2)].
      rewrite HK in Hr2. rewrite Hr1 in Hr2. injection Hr2 as <-.
      destruct Hres1 as [[<- Hna1]|[c1 Hc1]], Hres2 as [[<- Hna2]|[c2 Hc2]]; [done|by destruct (Hna1 pz' c2)|by destruct (Hna2 pz c1)|congruence].
  - left. rewrite <- (HV x k). apply (sc_frame _ _ _ _ _ _ _ HS); [done|by intros []%elem_of_nil|].
    intros xs' pz' -> Hxs' Hin _. rewrite HV, Hw0 in Hxs'. by injection Hxs' as <-.
Qed.
Lemma remove_all p q xs : ∀ h, inv T h → K h o p = Some (PManyMany q) → view h o (Priv p) = Some (OL xs) →
  ∃ h', remove T F (VRef o) p xs h = (inl tt, h') ∧ Loosened h h' ∧ view h' o (Priv p) = Some (OL []).
Proof using Hde.
  induction xs as [|e xs IH]; intros h Hi Hk Hv.
  { exists h. unfold remove. rewrite obj_prop_pkind, Hk. split; [done|]. split; [by apply Loosened_refl|done]. }
  assert (p ≠ q) as Hpq by (intros ->; by destruct (pkind_ends T Hde h o q)).
  pose proof (proj2 Hi _ _ _ _ Hk Hv) as [Hni Hnd]%NoDup_cons.
  destruct (lk_many_many _ _ (proj2 (proj1 Hi)) _ _ _ _ Hk Hv) as (? & [= <-] & Hm).
  destruct (Hm e) as (y & qs & -> & He & Hy & Hin); [left|].
  destruct (C10_remove_many T F h o p q y (VRef y :: xs) qs (proj1 Hi) (proj2 Hi) Hpq He Hv Hy) as (h1 & E1 & Hsc & H1 & H2 & Hfr & HC1 & HM1); [left|].
  assert (filter (λ e, e ≠ VRef y) (VRef y :: xs) = xs) as Hf.
  { rewrite filter_cons, decide_False by auto. apply filter_all. intros z Hz ->. done. }
  rewrite Hf in H1.
  destruct (IH h1) as (h' & E' & HL & He').
  { by split. }
  { by rewrite (pkind_same T h h1). }
  { done. }
  exists h'. split; [|split; [|done]].
  - revert E1 E'. unfold remove. rewrite !obj_prop_pkind, (pkind_same T h h1), Hk by done. cbn [for_each].
    intros E1 E'. destruct (bind_inv _ _ _ _ _ E1) as ([] & h2 & Ea & Eb).
    erewrite bind_inl; [|exact Ea]. injection Eb as <-. exact E'.
  - eapply Loosened_trans; [|exact HL]. apply Loosened_intro; [done|by split|].
    intros x k. destruct (decide ((x, k) = (o, Priv p))) as [[= -> ->]|Hne1].
    { right. split; [cbn; by rewrite Hk|]. exists (OL (VRef y :: xs)). split; [done|]. left. split; [done|].
      destruct (decide ((y, q) = (o, p))) as [[= -> ->]|Hne]; [done|]. by exists (OL xs). }
    destruct (decide ((x, k) = (y, Priv q))) as [[= -> ->]|Hne2]; [|left; by apply Hfr].
    right. split; [cbn; destruct He as [_ ->]; done|]. exists (OL qs). split; [done|]. right. exact H2.
Qed.
Lemma clear_many h p q : inv T h → K h o p = Some (PManyMany q) → is_Some (view h o (Priv p)) →
  ∃ h', clear T F o p h = (inl tt, h') ∧ Loosened h h' ∧ view h' o (Priv p) = Some (OL []).
Proof using Hde.
  intros Hi Hk [w Hw]. destruct (lk_many_many _ _ (proj2 (proj1 Hi)) _ _ _ _ Hk Hw) as (xs & -> & _).
  destruct (remove_all p q xs h Hi Hk Hw) as (h' & E & HL & He). exists h'. split; [|done]. unfold clear. rewrite Hk.
  unfold getattr. unfold view in Hw. destruct (slot h o (Priv p)) as [v|] eqn:Es; [|done]. cbn in Hw.
  destruct v; try done. destruct (h_lists h !! l) as [ys|] eqn:El; [|done]. injection Hw as ->.
  erewrite bind_inl; [|rewrite obj_prop_pkind, Hk; unfold read_key; rewrite Es; reflexivity].
  erewrite bind_inl; [exact E|]. cbn. by rewrite El.
Qed.
Lemma clear_step h p : inv T h → (end_kind (K h o p) = true → is_Some (view h o (Priv p))) →
  ∃ h', clear T F o p h = (inl tt, h') ∧ Loosened h h' ∧
    (end_kind (K h o p) = true → ∃ w, view h' o (Priv p) = Some (emptied w)).
Proof using Hde.
  intros Hi Hv. destruct (K h o p) as [[]|] eqn:Hk;
    try (exists h; unfold clear; rewrite Hk; split; [done|]; split; [by apply Loosened_refl|done]); specialize (Hv eq_refl).
  - destruct (clear_single h p _ Hi Hk Hv) as (h' & ? & ? & ?). exists h'. split_and!; [done..|]. intros _. by exists (OV VNone).
  - destruct (clear_coll h p _ Hi Hk Hv) as (h' & ? & ? & ?). exists h'. split_and!; [done..|]. intros _. by exists (OL []).
  - destruct (clear_pair h p _ Hi Hk Hv) as (h' & ? & ? & ?). exists h'. split_and!; [done..|]. intros _. by exists (OV VNone).
  - destruct (clear_many h p _ Hi Hk Hv) as (h' & ? & ? & ?). exists h'. split_and!; [done..|]. intros _. by exists (OL []).
Qed.
Lemma shape_some h h' k : Loosened h h' → is_Some (view h o k) → end_key T h o k = true → is_Some (view h' o k).
Proof.
  intros HL [w Hw] Hk. pose proof (lo_shape _ _ HL k Hk) as E. rewrite Hw in E. destruct (view h' o k); [by eexists|done].
Qed.
Lemma take_out_steps ps : ∀ h, inv T h → (∀ p, end_kind (K h o p) = true → is_Some (view h o (Priv p))) →
  ∃ h', take_out T F o ps h = (inl tt, h') ∧ Loosened h h' ∧
    (∀ p, p ∈ ps → end_kind (K h o p) = true → ∃ w, view h' o (Priv p) = Some (emptied w)).
Proof using Hde.
  induction ps as [|p ps IH]; intros h Hi Hv.
  { exists h. split; [done|]. split; [by apply Loosened_refl|]. by intros p ?%elem_of_nil. }
  destruct (clear_step h p Hi (Hv p)) as (h1 & E1 & HL1 & He1).
  assert (∀ r, K h1 o r = K h o r) as HK by (intros; apply pkind_same, HL1).
  destruct (IH h1) as (h' & E' & HL' & He'); [apply HL1| |].
  { intros r. rewrite HK. intros Hr. eapply shape_some; [done|by apply Hv|done]. }
  exists h'. split; [|split].
  - unfold take_out. cbn [for_each]. erewrite bind_inl; [exact E'|exact E1].
  - by eapply Loosened_trans.
  - intros r [-> |Hr]%elem_of_cons Hk.
    + destruct (He1 Hk) as [w Hw]. exists w. apply (lo_empty _ _ HL'); [cbn; by rewrite HK|done].
    + apply He'; [done|by rewrite HK].
Qed.
(** A consistent graph in which all ends of [o] are empty has no reference to
    [o]. *)
Lemma nothing_points h : Consistent T h → (∀ p, end_kind (K h o p) = true → view h o (Priv p) = Some (OV VNone) ∨ view h o (Priv p) = Some (OL [])) →
  ∀ x p, ¬ points T h x p o.
Proof using.
  intros HC He x p [Hk Hp].
  assert (∀ q w, K h o q = w → end_kind w = true → ∀ t, view h o (Priv q) ≠ Some (OV (VRef t)) ∧ ∀ ys, view h o (Priv q) = Some (OL ys) → VRef t ∉ ys) as Hno.
  { intros q w <- Hw t. destruct (He q Hw) as [-> | ->]; split; try done. intros ys [= <-]. apply not_elem_of_nil. }
  destruct (K h x p) as [k|] eqn:Ek; [|done]. destruct k as [q|q|q|q| | |]; try done.
  - destruct Hp as [Hp|(ys & Hp & Hin)]; destruct (lk_single _ _ (proj2 HC) _ _ _ _ Ek Hp) as [?|(t & zs & Ew & [_ (p' & Hq & _)] & Hz & Hzin)]; try done.
    injection Ew as <-. by destruct (Hno q _ Hq eq_refl x) as [_ Hn], (Hn zs Hz).
  - destruct Hp as [Hp|(ys & Hp & Hin)]; destruct (lk_coll _ _ (proj2 HC) _ _ _ _ Ek Hp) as (zs & Ew & _ & Hz); try done.
    injection Ew as <-. destruct (Hz _ Hin) as (x' & p' & [= <-] & [Ho _] & Hv). by destruct (Hno p' _ Ho eq_refl x) as [Hn _].
  - destruct Hp as [Hp|(ys & Hp & Hin)]; destruct (lk_one_one _ _ (proj2 HC) _ _ _ _ Ek Hp) as [?|(t & Ew & [_ Hq] & Hz)]; try done.
    injection Ew as <-. by destruct (Hno q _ Hq eq_refl x) as [Hn _].
  - destruct Hp as [Hp|(ys & Hp & Hin)]; destruct (lk_many_many _ _ (proj2 HC) _ _ _ _ Ek Hp) as (zs & Ew & Hz); try done.
    injection Ew as <-. destruct (Hz _ Hin) as (x' & vs & [= <-] & [_ Ho] & Hv & Hvin). by destruct (Hno q _ Ho eq_refl x) as [_ Hn], (Hn vs Hv).
Qed.
End detach.

(** *** C93 *)
(** The client takes [o] out, clearing its ends in any order: no call raises,
    [o]'s ends are empty, [o] is gone from the ends of the other objects, and
    nothing else has changed. *)
Theorem C93_taken_out T f h o ps : distinct_ends T → Consistent T h → MMNoDup (pkind T h) (view h) →
  (∀ p, end_kind (pkind T h o p) = true → p ∈ ps ∧ is_Some (view h o (Priv p))) →
  ∃ h', take_out T (S (S (S f))) o ps h = (inl tt, h') ∧ same_classes h h' ∧ Consistent T h' ∧ MMNoDup (pkind T h') (view h') ∧
    (∀ x k, view h' x k =
      if end_key T h x k then (if decide (x = o) then emptied else forget o) <$> view h x k else view h x k) ∧
    ∀ x p, ¬ points T h' x p o.
Proof.
  intros Hd HC HM Hps. destruct (take_out_steps T Hd f o ps h) as (h' & E & HL & He); [by split|intros p Hp; by apply Hps|].
  assert (∀ x r, pkind T h' x r = pkind T h x r) as HK by (intros; apply pkind_same, HL).
  assert (∀ p, end_kind (pkind T h o p) = true → ∃ w, view h' o (Priv p) = Some (emptied w)) as Hem.
  { intros p Hp. apply He; [by apply Hps|done]. }
  assert (∀ x p, ¬ points T h' x p o) as Hnp.
  { apply nothing_points; [apply HL|]. intros p. rewrite HK. intros Hp. destruct (Hem p Hp) as [[v|ys] ->]; [by left|by right]. }
  exists h'. split; [done|]. split; [apply HL|]. split; [apply HL|]. split; [apply HL|]. split; [|done].
  intros x k. destruct (end_key T h x k) eqn:Ek; [|by apply (lo_other _ _ _ _ HL)]. case_decide as Hx.
  - subst x. destruct k as [|p]; [done|]. destruct (Hem p Ek) as [w Hw].
    pose proof (lo_shape _ _ _ _ HL _ Ek) as Hs. rewrite Hw in Hs |- *. cbn in Hs |- *. by rewrite emptied_emptied in Hs.
  - rewrite <- (lo_end _ _ _ _ HL x k Hx Ek). destruct k as [|p]; [done|]. cbn in Ek.
    destruct (view h' x (Priv p)) as [w|] eqn:Ew; [|done]. cbn. f_equal. symmetry.
    destruct w as [v|ys]; cbn.
    + rewrite decide_False; [done|]. intros ->. apply (Hnp x p). split; [by rewrite HK|]. by left.
    + f_equal. apply filter_all. intros y Hy ->. apply (Hnp x p). split; [by rewrite HK|]. right. eauto.
Qed.
Print Assumptions C93_taken_out.
Fixpoint prop_names (cs : list cls) : list name := match cs with [] => [] | c :: r => map fst (c_props c) ++ prop_names r end.
Lemma lookup_in_names cs p k : lookup_in cs p = Some k → p ∈ prop_names cs.
Proof.
  induction cs as [|c cs IH]; [done|]. cbn. rewrite elem_of_app. destruct (assoc p (c_props c)) as [k'|] eqn:E.
  - intros _. left. apply elem_of_list_fmap. exists (p, k'). split; [done|]. by apply CreateFacts.assoc_in.
  - intros H. right. by apply IH.
Qed.
Definition slots_b (T : schema) (h : heap) (o : nat) : bool :=
  match cls_of h o with
  | Some c => forallb (λ p, negb (end_kind (lookup_prop T c p)) || match view h o (Priv p) with Some _ => true | None => false end) (prop_names (mro T c))
  | None => true
  end.
Notation ends_of T h o := (match cls_of h o with Some c => prop_names (mro T c) | None => [] end).
Lemma slots_b_ok T h o : slots_b T h o = true → ∀ p, end_kind (pkind T h o p) = true → p ∈ ends_of T h o ∧ is_Some (view h o (Priv p)).
Proof.
  unfold slots_b, pkind. destruct (cls_of h o) as [c|]; [|done]. cbn. rewrite forallb_forall. intros H p Hp.
  assert (p ∈ prop_names (mro T c)) as Hin.
  { destruct (lookup_prop T c p) eqn:E; [|done]. by eapply lookup_in_names. }
  split; [done|]. apply elem_of_list_In in Hin. specialize (H _ Hin). rewrite Hp in H. destruct (view h o (Priv p)); [by eexists|done].
Qed.
(** Terminal 0 of the example graph, which has a connectivity node and a power
    flow, and remote unit 7, which has a communication link. *)
Notation out0 := (take_out cim14 20 0 (ends_of cim14 g14 0) g14).
Notation out7 := (take_out cim14 20 7 (ends_of cim14 g14 7) g14).
Example C93_example : distinct_ends cim14 ∧ Consistent cim14 g14 ∧ MMNoDup (pkind cim14 g14) (view g14) ∧
  (∀ p, end_kind (pkind cim14 g14 0 p) = true → p ∈ ends_of cim14 g14 0 ∧ is_Some (view g14 0 (Priv p))) ∧
  (∀ p, end_kind (pkind cim14 g14 7 p) = true → p ∈ ends_of cim14 g14 7 ∧ is_Some (view g14 7 (Priv p))) ∧
  points cim14 g14 2 n_Terminals 0 ∧ points cim14 g14 4 n_Terminal 0 ∧ points cim14 g14 6 n_RemoteUnits 7 ∧
  fst out0 = inl tt ∧ view (snd out0) 2 (Priv n_Terminals) = Some (OL [VRef 1]) ∧ view (snd out0) 4 (Priv n_Terminal) = Some (OV VNone) ∧
  fst out7 = inl tt ∧ view (snd out7) 6 (Priv n_RemoteUnits) = Some (OL []).
Proof.
  split; [apply (tables_distinct _ cim14_map); left|]. split; [exact g14_Consistent|]. split; [apply g14_inv|].
  split; [apply slots_b_ok; compute_now|]. split; [apply slots_b_ok; compute_now|].
  split. { split; [compute_now|]. right. exists [VRef 0; VRef 1]. split; [compute_now|]. left. }
  split. { split; [compute_now|]. left. compute_now. }
  split. { split; [compute_now|]. right. exists [VRef 7]. split; [compute_now|]. left. }
  vm_compute. by split_and!.
Qed.
(** Without the hypothesis that partners are listed once the object is not
    always out: unit 7 is listed twice and is still there afterwards. *)
Notation twice := (snd (run_op cim14 20 (OAdd 6 n_RemoteUnits [7]) g14)).
Theorem C93_always_out_refuted : ∃ h', take_out cim14 20 7 (ends_of cim14 twice 7) twice = (inl tt, h') ∧
  (∀ p, end_kind (pkind cim14 twice 7 p) = true → p ∈ ends_of cim14 twice 7 ∧ is_Some (view twice 7 (Priv p))) ∧
  points cim14 h' 6 n_RemoteUnits 7.
Proof.
  exists (snd (take_out cim14 20 7 (ends_of cim14 twice 7) twice)). split; [apply run_ok; compute_now|].
  split; [apply slots_b_ok; compute_now|]. split; [compute_now|]. right. exists [VRef 7]. split; [compute_now|left].
Qed.
Print Assumptions C93_always_out_refuted.
