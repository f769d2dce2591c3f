(** Properties C69 and C70: the words the other theorems are stated in. *)
From Coq Require Import String.
From stdpp Require Import prelude gmap.
From Verif Require Import PyStr PyHeap Schema Assoc AssocSpec HeapFacts Names TabCIM14 TabCIM15 Tables TableFacts BlankFacts Demo
  HistorySpec ImpedanceFacts Reader ReaderSpec ReaderFacts ReadStepFacts ReadDocFacts ReadDemo VocabSpec VocabFacts PropAssoc PropReader.

Lemma has_cls t k : (match find_cls t k with Some _ => true | None => false end) = true → ∃ c, find_cls t k = Some c.
Proof. destruct (find_cls t k) as [c|]; [|done]. by exists c. Qed.

(** *** C69: objects and properties in a document *)
Theorem C69_object base rdf e id : is_object base rdf e id ↔ ∃ l, names_object base rdf e l id.
Proof. apply object_iff. Qed.
Print Assumptions C69_object.
Theorem C69_property base rdf e a : is_property base rdf e a ↔ names_property base rdf e a.
Proof. apply property_iff. Qed.
Print Assumptions C69_property.
Theorem C69_resource rdf e v : resource rdf e = Some v ↔ rdf_has rdf "resource" e v.
Proof. apply rdf_attr_has. Qed.
Print Assumptions C69_resource.
Theorem C69_declared base rdf pm evs id k : (id, k) ∈ declared base rdf pm evs ↔
  ∃ e l, EEnd e ∈ evs ∧ names_object base rdf e l id ∧ first_is l k pm.
Proof. apply declared_iff. Qed.
Print Assumptions C69_declared.
(** In document order, and the last declaration of an identifier counts. *)
Theorem C69_order base rdf pm a b : declared base rdf pm (a ++ b) = declared base rdf pm a ++ declared base rdf pm b.
Proof. apply declared_app. Qed.
Print Assumptions C69_order.
Theorem C69_last base rdf pm evs id k : declared_class base rdf pm evs id = Some k ↔
  ∃ a b, declared base rdf pm evs = a ++ (id, k) :: b ∧ id ∉ map fst b.
Proof. apply declared_last. Qed.
Print Assumptions C69_last.
(** Within the element of an object, [rest] beginning at the end of a property
    element or anywhere else, properties go to the object of that identifier. *)
Theorem C69_owner t pm base rdf fuel pf err root items i id ps tail rest d h cur d' hk :
  Forall (flat_ok base rdf) items → flat_ok base rdf i → is_object base rdf (item_elem base i) id →
  (∀ p, p ∈ ps → p ∈ i_props i) → (tail = [] ∨ ∃ p, p ∈ i_props i ∧ tail = [EStart (pel_elem base p)]) →
  Reaches base rdf t pm fuel pf err root
    (flat base items ++ EStart (item_elem base i) :: flat_map (pel_events base) ps ++ tail) rest d h cur d' hk →
  cur = assoc id d'.
Proof. intros Hi Hok [_ Hid]. exact (reaches_owner base rdf t pm fuel pf err root items i id ps tail rest d h cur d' hk Hi Hok Hid). Qed.
Print Assumptions C69_owner.
Lemma flat_one base rdf i : flat_ok_b rdf i = true → flat_ok base rdf i.
Proof.
  intros H. assert (forallb (flat_ok_b rdf) [i] = true) as H1 by (cbn; by rewrite H).
  apply (flat_ok_b_ok base) in H1. by inversion H1.
Qed.
Definition e_about : elem := Elem (Bt ++ u "Terminal") [(rdf_key R "about", u "#t1")] None false.
Definition e_conn : elem := Elem (Bt ++ u "ACDC.Terminal.connected") [] (Some (u "true")) false.
Example C69_example :
  names_object Bt R e_about (u "Terminal") (u "t1") ∧ names_property Bt R e_conn n_connected ∧
  (∃ k, first_is (u "Terminal") k topo_map) ∧ Forall (flat_ok Bt R) (take 1 topo_items) ∧
  ∃ i, topo_items !! 1 = Some i ∧ flat_ok Bt R i ∧ is_Some (uuid_of R (i_attrs i)).
Proof.
  split; [|split; [|split; [|split]]].
  - split; [reflexivity|]. right. split; [intros [E|?%elem_of_nil]%elem_of_cons; [discriminate|done]|].
    exists (u "#t1"). split; [|reflexivity]. exists [], []. split; [reflexivity|apply not_elem_of_nil].
  - split; [apply not_elem_of_nil|]. split; [apply not_elem_of_nil|]. exists (u "ACDC.Terminal.connected"). split; [reflexivity|].
    split; [apply ReadStepFacts.no_dot; compute_now|]. right. exists (u "ACDC.Terminal"). compute_now.
  - assert (∃ k, assoc (u "Terminal") topo_map = Some k) as [k Hk]; [eexists; compute_now|]. exists k. by apply assoc_first.
  - apply flat_ok_b_ok. compute_now.
  - eexists. split; [reflexivity|]. split; [apply (flat_one Bt R); compute_now|]. eexists. compute_now.
Qed.

(** *** C70: base classes and attribute access *)
Theorem C70_base_classes t pm k c : (t, pm) ∈ tables → find_cls t k = Some c →
  derives t k (mro t k) ∧ ∀ cs, derives t k cs → cs = mro t k.
Proof.
  intros Ht Hc. destruct (chains_one t pm k c Ht Hc) as [Hd Hn]. split; [exact Hd|].
  intros cs Hcs. exact (derives_unique t k cs Hn Hcs _ Hd).
Qed.
Print Assumptions C70_base_classes.
Theorem C70_lookup t k p kd : lookup_prop t k p = Some kd ↔
  ∃ pre c post, mro t k = pre ++ c :: post ∧ first_is p kd (c_props c) ∧ ∀ c', c' ∈ pre → p ∉ map fst (c_props c').
Proof. apply lookup_in_iff. Qed.
Print Assumptions C70_lookup.
Theorem C70_getter t h o ck a : Wf h → cls_of h o = Some ck → (∀ p c, lookup_prop t ck a ≠ Some (PAlias p c)) →
  evaluates h (getattr t (VRef o) a h) (view h o (match lookup_prop t ck a with Some _ => Priv a | None => key_of a end)).
Proof. apply getattr_evaluates. Qed.
Print Assumptions C70_getter.
Theorem C70_alias t h o ck a p c : Wf h → cls_of h o = Some ck → lookup_prop t ck a = Some (PAlias p c) →
  (∀ v, view h o (Priv p) = Some (OV v) → of_class h v c → getattr t (VRef o) a h = (inl v, h)) ∧
  (∀ w, view h o (Priv p) = Some w → (∀ v, w = OV v → ¬ of_class h v c) → getattr t (VRef o) a h = (inl VNone, h)) ∧
  (view h o (Priv p) = None → getattr t (VRef o) a h = (inr AttributeError, h)).
Proof. apply getattr_alias. Qed.
Print Assumptions C70_alias.
(** What was assigned to the single end is what is read. *)
Theorem C70_set_get T f h x p q w :
  Consistent T h → pkind T h x p = Some (POneMany q) → has_slot h x p → fits_one_many T h x p q w →
  ∃ h', setattr T (S f) (VRef x) p w h = (inl tt, h') ∧ getattr T (VRef x) p h' = (inl w, h').
Proof.
  intros HC Hk Hs Hw. destruct (C01_set_single T f h x p q w HC Hk Hs Hw) as (h' & E & Hsc & HS & [Hwf _]).
  exists h'. split; [exact E|]. unfold pkind in Hk. destruct (cls_of h x) as [ck|] eqn:Ec; [|done]. cbn in Hk.
  assert (evaluates h' (getattr T (VRef x) p h') (view h' x (Priv p))) as Hev.
  { pose proof (C70_getter T h' x ck p Hwf) as Hg. rewrite Hsc in Hg. specialize (Hg Ec). rewrite Hk in Hg. apply Hg. done. }
  destruct HS as [Hx _]. by rewrite Hx in Hev.
Qed.
Print Assumptions C70_set_get.
Theorem C70_set_get_pair T f h x p q w :
  Consistent T h → p ≠ q → pkind T h x p = Some (POneOne q) → has_slot h x p → fits_one_one T h x p q w →
  ∃ h', setattr T (S (S f)) (VRef x) p w h = (inl tt, h') ∧ getattr T (VRef x) p h' = (inl w, h').
Proof.
  intros HC Hpq Hk Hs Hw. destruct (C02_set_pair T f h x p q w HC Hpq Hk Hs Hw) as (h' & E & Hsc & HS & [Hwf _]).
  exists h'. split; [exact E|]. unfold pkind in Hk. destruct (cls_of h x) as [ck|] eqn:Ec; [|done]. cbn in Hk.
  assert (evaluates h' (getattr T (VRef x) p h') (view h' x (Priv p))) as Hev.
  { pose proof (C70_getter T h' x ck p Hwf) as Hg. rewrite Hsc in Hg. specialize (Hg Ec). rewrite Hk in Hg. apply Hg. done. }
  destruct HS as [Hx _]. by rewrite Hx in Hev.
Qed.
Print Assumptions C70_set_get_pair.
Example C70_example :
  (cim14, cim14_map) ∈ tables ∧ (∃ c, find_cls cim14 n_CIM14_IEC61970_Core_Terminal_Terminal = Some c) ∧
  map c_name (mro cim14 n_CIM14_IEC61970_Core_Terminal_Terminal) = [n_Terminal; n_IdentifiedObject; n_Element] ∧
  Wf g14 ∧ cls_of g14 0 = Some n_CIM14_IEC61970_Core_Terminal_Terminal ∧
  lookup_prop cim14 n_CIM14_IEC61970_Core_Terminal_Terminal n_ConnectivityNode = Some (POneMany n_Terminals) ∧
  fst (getattr cim14 (VRef 0) n_ConnectivityNode g14) = inl (VRef 2) ∧
  Wf g15 ∧ cls_of g15 0 = Some acls ∧ is_alias (lookup_prop cim15 acls n_PhaseImpedance) = true.
Proof.
  split; [left|]. split; [apply has_cls; compute_now|]. split; [compute_now|]. split; [apply g14_Consistent|].
  split; [compute_now|]. split; [compute_now|]. split; [compute_now|]. split; [apply g15_Consistent|]. split; compute_now.
Qed.
