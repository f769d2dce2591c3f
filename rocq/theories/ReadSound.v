(** Reading documents of compatible statements. *)
From Coq Require Import String.
From stdpp Require Import prelude gmap.
From Verif Require Import PyStr PyHeap Schema Assoc AssocSpec HeapFacts LinksFacts AssocFacts AddRemoveFacts CtorFacts
  HistorySpec HistoryFacts Names TabCIM14 TabCIM15 TabProfiles Tables TableSpec TableFacts BlankFacts Reader ReaderSpec
  ReaderFacts FrameFacts StatementFacts CreateFacts ReaderTabs CompatFacts.

Lemma pass1_outcome S pm f base rdf err evs : makes S pm → ∀ c d h x d' h', Wf h →
  pass1 S pm (Datatypes.S f) base rdf err evs c d h = (Some x, d', h') →
  x = TypeError ∨ (x = ParseError ∧ pass1 S pm (Datatypes.S f) base rdf false evs c d h = (None, d', h')).
Proof.
  intros Hm. induction evs as [|ev evs IH]; intros c d h x d' h' Hwf E.
  { cbn [pass1] in *. destruct err; [|done]. simplify_eq. by right. }
  assert (∀ c, pass1_step S pm (Datatypes.S f) base rdf c ev d h = (inr TypeError, snd (pass1_step S pm (Datatypes.S f) base rdf c ev d h)) ∨
    ∃ d1 h1, Wf h1 ∧ pass1_step S pm (Datatypes.S f) base rdf c ev d h = (inl d1, h1)) as Hs.
  { intros c'. unfold pass1_step. destruct ev as [e|e|]; try (right; by eexists _, _).
    destruct (in_base base e); [|right; by eexists _, _].
    destruct (uuid_of rdf _) as [id|]; [|right; by eexists _, _].
    destruct (assoc (local base e) pm) as [k|] eqn:Ek; [|right; by eexists _, _].
    unfold bind. fold (uuid_kw id). destruct (Hm _ _ Ek) as [[ws Hws]|Hr].
    - destruct (construct_blank S f h k [] _ _ Hwf (Hws id)) as (h1 & -> & Hwf1 & _). right. by eexists _, _.
    - destruct (Hr f h id Hwf) as (h1 & -> & _). by left. }
  destruct ev as [e|e|p v]; cbn [pass1] in *; [| |by apply (IH _ _ _ _ _ _ Hwf E)].
  all: destruct (Hs c) as [Es|(d1 & h1 & Hwf1 & Es)]; rewrite Es in *; [left; by simplify_eq|by apply (IH _ _ _ _ _ _ Hwf1 E)].
Qed.

Lemma statements_ext base rdf k1 k2 evs : (∀ id, k1 id = k2 id) → ∀ cur,
  statements base rdf k1 cur evs = statements base rdf k2 cur evs.
Proof.
  intros Hk. assert (∀ e, opens base rdf k1 e = opens base rdf k2 e) as Ho.
  { intros e. unfold opens. destruct (in_base base e); [|done]. destruct (uuid_of rdf (e_attrs e)); [|done]. by rewrite Hk. }
  induction evs as [|ev evs IH]; intros cur; [done|]. cbn [statements].
  destruct cur, ev; rewrite ?Ho; repeat case_match; by rewrite ?IH.
Qed.

Section sound.
Context (t : schema) (pm : list (name * name)) (Ht : (t, pm) ∈ tables) (base rdf : pystr).

Lemma pass1_classes evs d h d' h1 : dict_alive d h →
  Created t (declared base rdf pm evs) d h d' h1 →
  dict_alive d' h1 ∧ ∀ id, class_in base rdf pm evs d h id = (v ← assoc id d'; val_cls h1 v).
Proof.
  intros Hd HC. unfold class_in, declared_class. split.
  - intros id v Hv. destruct (assoc id (reverse (declared base rdf pm evs))) as [k|] eqn:E.
    + destruct (cr_new _ _ _ _ _ _ HC id k E) as (o & Ho & _ & Hc & _). exists o. split; [congruence|]. by rewrite Hc.
    + rewrite (cr_old _ _ _ _ _ _ HC id E) in Hv. destruct (Hd _ _ Hv) as (o & -> & Hc). exists o. split; [done|].
      by rewrite (proj1 (cr_frame _ _ _ _ _ _ HC o (Pub []) Hc)).
  - intros id. destruct (assoc id (reverse (declared base rdf pm evs))) as [k|] eqn:E.
    + destruct (cr_new _ _ _ _ _ _ HC id k E) as (o & -> & _ & Hc & _). simpl. by rewrite Hc.
    + rewrite (cr_old _ _ _ _ _ _ HC id E). destruct (assoc id d) as [v|] eqn:Ev; [|done].
      destruct (Hd _ _ Ev) as (o & -> & Hc). simpl. by rewrite (proj1 (cr_frame _ _ _ _ _ _ HC o (Pub []) Hc)).
Qed.

Lemma Created_Sound evs d h d' h1 : Sound t h → Created t (declared base rdf pm evs) d h d' h1 → Sound t h1.
Proof using Ht.
  intros Hs HC.
  assert (∀ o k, cls_of h o = None → cls_of h1 o = Some k → ∃ id, (∀ ky, view h1 o ky = bview t k id ky) ∧
    blank_links t k ∧ blank_plain t k) as Hnew.
  { intros o k Hn Hk. destruct (cr_blank _ _ _ _ _ _ HC o k Hn Hk) as (id & Hin & Hv). exists id. split; [done|].
    destruct (declared_map _ _ _ _ _ _ Hin) as [tag Htag]. eapply tables_blank; [done|done|].
    eapply blank_new_unraised; [done|done|]. by apply (cr_made _ _ _ _ _ _ HC id k). }
  split.
  - apply (cr_consistent _ _ _ _ _ _ HC), Hs.
  - intros o p k Hk. unfold pkind in Hk. destruct (cls_of h1 o) as [ck|] eqn:Hc; [|done]. simpl in Hk.
    destruct (cls_of h o) as [ck0|] eqn:Hc0.
    + destruct (cr_frame _ _ _ _ _ _ HC o (Priv p)) as [E1 E2]; [by rewrite Hc0|]. rewrite E2.
      assert (ck0 = ck) as -> by congruence. apply (so_slots _ _ Hs o p k). unfold pkind. by rewrite Hc0.
    + destruct (Hnew o ck Hc0 Hc) as (id & Hv & Hbl & _). rewrite Hv. specialize (Hbl id p k Hk).
      destruct k; try done; by rewrite Hbl.
  - intros o ck a w Hc Hpl Hw. destruct (cls_of h o) as [ck0|] eqn:Hc0.
    + destruct (cr_frame _ _ _ _ _ _ HC o (Pub a)) as [E1 E2]; [by rewrite Hc0|]. rewrite E2 in Hw.
      assert (ck0 = ck) as -> by congruence. by apply (so_plain _ _ Hs o ck a w).
    + destruct (Hnew o ck Hc0 Hc) as (id & Hv & _ & Hbp). destruct Hpl as (Hpub & Hl & c & Hcm & Hca).
      destruct (Hbp id a c Hcm Hca Hl) as (v & Hbv & Hpv). rewrite Hv in Hw. rewrite Hpub in Hbv.
      rewrite Hw in Hbv. simplify_eq. exists v. split; [done|]. by destruct v.
Qed.

Context (f : nat) (pf : pystr → option pystr).
Lemma statements_prop kn evs : ∀ cur id e, (id, e) ∈ statements base rdf kn cur evs →
  ∃ a, is_property base rdf e a.
Proof.
  induction evs as [|ev evs IH]; intros cur id e; cbn [statements]; [by intros ?%elem_of_nil|].
  destruct cur as [i|], ev as [e'|e'|]; try apply IH. destruct (in_base base e') eqn:Eb; [|apply IH].
  destruct (has_id rdf e') eqn:Eh; [apply IH|]. intros [[= -> ->]|Hin]%elem_of_cons; [|by eapply IH].
  eexists. unfold has_id in Eh. split_and!; [done|by repeat case_match..|done].
Qed.

Lemma reads_sound err root evs d h x d' h' : Sound t h → dict_alive d h → foreign_root base evs →
  compatible_doc base rdf t pm evs d h →
  reads base rdf t pm (S (S f)) pf err root evs d h = (x, d', h') → x ≠ Some TypeError → Sound t h'.
Proof using Ht.
  intros Hs Hd Hf Hcomp E Hx. pose proof (tables_makes t pm Ht) as Hm. pose proof (proj1 (so_consistent _ _ Hs)) as Hwf.
  rewrite reads_exec in E.
  destruct (pass1 t pm (S (S f)) base rdf err evs false d h) as [[[x1|] d1] h1] eqn:E1.
  - simplify_eq. destruct (pass1_outcome _ _ _ _ _ _ _ Hm _ _ _ _ _ _ Hwf E1) as [->|[-> E2]]; [done|].
    eapply Created_Sound; [done|]. by eapply pass1_created.
  - pose proof (pass1_created _ _ _ _ _ _ _ Hm Hf _ _ _ _ _ Hwf E1) as HC.
    destruct (pass1_classes _ _ _ _ _ Hd HC) as [Hd1 Hcl]. pose proof (Created_Sound _ _ _ _ _ Hs HC) as Hs1.
    assert (∀ cur, statements base rdf (known d1) cur evs =
      statements base rdf (λ id, match class_in base rdf pm evs d h id with Some _ => true | None => false end) cur evs) as Est.
    { assert (∀ id, known d1 id = match class_in base rdf pm evs d h id with Some _ => true | None => false end) as Hkn.
      { intros id. rewrite Hcl. unfold known. destruct (assoc id d1) as [v|] eqn:Ev; [|done].
        destruct (Hd1 _ _ Ev) as (o & -> & [? Hc]). simpl. by rewrite Hc. }
      intros cur. by apply statements_ext. }
    assert (keeps_sound t h1 (exec base rdf t (S (S f)) pf d1 (statements base rdf (known d1) None evs) h1)) as [_ Hs2].
    { eapply exec_sound; [by eapply tables_distinct|done|done|exact Hcl|]. intros id e Hin.
      destruct (statements_prop _ _ _ _ _ Hin) as [a Ha]. rewrite Est in Hin.
      destruct (Hcomp id e Hin) as (ck & ? & ?). eauto 10. }
    destruct (exec _ _ _ _ _ _ _ _) as [[]]; by simplify_eq.
Qed.
End sound.
