(** What a whole document makes of the objects it describes. *)
From Coq Require Import String.
From stdpp Require Import prelude gmap.
From Verif Require Import PyStr PyHeap Schema Assoc AssocSpec TableSpec HeapFacts Reader ReaderSpec ReaderFacts FrameFacts CreateFacts
  StatementFacts ReaderTabs CompatFacts ReadSound ReadStepFacts ReadDocFacts Names TabProfiles Tables DocSpec DocFacts RefFacts
  ReturnFacts OrderFacts ReadDemo DocDemo PropReader.

(** *** C87 *)
(** An attribute of an object of the document is what the statements about it,
    in turn, make of the value the constructor gives it. *)
Theorem C87_attribute t pm base rdf f pf err root evs d h d' h' id k a : (t, pm) ∈ tables →
  Wf h → dict_alive d h → foreign_root base evs →
  reads base rdf t pm (S f) pf err root evs d h = (None, d', h') →
  declared_class base rdf pm evs id = Some k → plain_attr t k a →
  (∀ e r, e ∈ about base rdf pm evs d id a → resource rdf e = Some r → has_prefix (u "#") r = false) →
  ∃ o v0 v, assoc id d' = Some (VRef o) ∧ starts t k id a v0 ∧ takes_all rdf pf v0 (about base rdf pm evs d id a) v ∧ shows t h' o a v.
Proof.
  intros Ht Hwf Hd Hf Hr Hk Hpl Hno.
  destruct (reads_attribute t pm Ht base rdf f pf err root evs d h d' h' id k a Hwf Hd Hf Hr Hk Hpl Hno) as (o & v0 & v & Ho & Hc & Hs & Ha & Hv).
  exists o, v0, v. split_and!; [done..|]. destruct Hpl as (Hpub & Hl & _). exists k. split; [done|]. by rewrite Hl, Hpub.
Qed.
Print Assumptions C87_attribute.
(** Reads that agree on the statements about the attribute agree on its value,
    whatever else the documents, dictionaries and heaps are. *)
Theorem C87_same t pm base rdf f f' pf err err' root root' evs evs' d1 d2 h1 h2 d1' d2' h1' h2' id k a : (t, pm) ∈ tables →
  Wf h1 → dict_alive d1 h1 → foreign_root base evs → reads base rdf t pm (S f) pf err root evs d1 h1 = (None, d1', h1') →
  Wf h2 → dict_alive d2 h2 → foreign_root base evs' → reads base rdf t pm (S f') pf err' root' evs' d2 h2 = (None, d2', h2') →
  declared_class base rdf pm evs id = Some k → declared_class base rdf pm evs' id = Some k → plain_attr t k a →
  (∀ e r, e ∈ about base rdf pm evs d1 id a → resource rdf e = Some r → has_prefix (u "#") r = false) →
  about base rdf pm evs d1 id a = about base rdf pm evs' d2 id a →
  ∃ o1 o2 v, assoc id d1' = Some (VRef o1) ∧ assoc id d2' = Some (VRef o2) ∧ shows t h1' o1 a v ∧ shows t h2' o2 a v.
Proof.
  intros Ht Hw1 Hd1 Hf1 Hr1 Hw2 Hd2 Hf2 Hr2 Hk1 Hk2 Hpl Hno Hab.
  destruct (C87_attribute t pm base rdf f pf err root evs d1 h1 d1' h1' id k a Ht Hw1 Hd1 Hf1 Hr1 Hk1 Hpl Hno) as (o1 & u1 & v1 & Ho1 & Hs1 & Ha1 & Hv1).
  rewrite Hab in Hno.
  destruct (C87_attribute t pm base rdf f' pf err' root' evs' d2 h2 d2' h2' id k a Ht Hw2 Hd2 Hf2 Hr2 Hk2 Hpl Hno) as (o2 & u2 & v2 & Ho2 & Hs2 & Ha2 & Hv2).
  exists o1, o2, v1. split_and!; [done..|].
  rewrite (starts_fun _ _ _ _ _ _ Hs1 Hs2), Hab in Ha1. by rewrite (takes_all_fun _ _ _ _ _ _ Ha1 Ha2).
Qed.
Print Assumptions C87_same.
Lemma takes_str rdf pf s e w : takes rdf pf (VStr s) e w → ∃ s', w = VStr s'.
Proof. inversion 1; subst; eauto; try done. match goal with H : converts _ _ _ _ |- _ => inversion H; eauto end. Qed.
Lemma takes_all_str rdf pf es : ∀ s w, takes_all rdf pf (VStr s) es w → ∃ s', w = VStr s'.
Proof.
  induction es as [|e es IH]; intros s w H; inversion H as [|? ? x ? ? H1 H2]; subst; [eauto|].
  destruct (takes_str _ _ _ _ _ H1) as [s' ->]. eauto.
Qed.
(** Of several texts for a string the last stays. *)
Theorem C87_last t pm base rdf f pf err root evs d h d' h' id k a s es e text : (t, pm) ∈ tables →
  Wf h → dict_alive d h → foreign_root base evs →
  reads base rdf t pm (S f) pf err root evs d h = (None, d', h') →
  declared_class base rdf pm evs id = Some k → plain_attr t k a → starts t k id a (VStr s) →
  about base rdf pm evs d id a = es ++ [e] → resource rdf e = None → e_text e = Some text →
  (∀ e r, e ∈ es → resource rdf e = Some r → has_prefix (u "#") r = false) →
  ∃ o, assoc id d' = Some (VRef o) ∧ shows t h' o a (VStr text).
Proof.
  intros Ht Hwf Hd Hf Hr Hk Hpl Hs Hab Hre Htx Hno.
  destruct (C87_attribute t pm base rdf f pf err root evs d h d' h' id k a Ht Hwf Hd Hf Hr Hk Hpl) as (o & v0 & v & Ho & Hs0 & Ha & Hv).
  { rewrite Hab. intros e' r [Hin| ->%elem_of_list_singleton]%elem_of_app; [by eapply Hno|congruence]. }
  exists o. split; [done|]. rewrite <- (starts_fun _ _ _ _ _ _ Hs Hs0), Hab in Ha. apply takes_all_snoc in Ha as (w & Ha & Ht').
  destruct (takes_all_str _ _ _ _ _ Ha) as [s' ->].
  assert (takes rdf pf (VStr s') e (VStr text)) as Ht2 by (eapply tk_text; [done..|apply cv_str]).
  by rewrite (takes_fun _ _ _ _ _ _ Ht' Ht2) in Hv.
Qed.
Print Assumptions C87_last.
(** The name is stated twice; the terminal is connected. *)
Lemma tied_foreign : foreign_root Bt tied_doc.
Proof. apply foreign_b_ok. compute_now. Qed.
Lemma tied_compatible : compatible_doc Bt R topo topo_map tied_doc [] heap_empty.
Proof. apply compatible_doc_b_ok. compute_now. Qed.
Lemma tied_coherent : coherent Bt R topo topo_map tied_doc [] heap_empty.
Proof. apply coherent_b_ok. compute_now. Qed.
Example C87_example :
  foreign_root Bt tied_doc ∧
  declared_class Bt R topo_map tied_doc (u "c1") = Some n_CIM14_CPSM_Topology_Core_ConnectivityNode_ConnectivityNode ∧
  plain_attr topo n_CIM14_CPSM_Topology_Core_ConnectivityNode_ConnectivityNode n_name ∧
  starts topo n_CIM14_CPSM_Topology_Core_ConnectivityNode_ConnectivityNode (u "c1") n_name (VStr []) ∧
  map e_text (about Bt R topo_map tied_doc [] (u "c1") n_name) = [Some (u "first"); Some (u "second")] ∧
  map (resource R) (about Bt R topo_map tied_doc [] (u "c1") n_name) = [None; None] ∧
  fst (fst (reads Bt R topo topo_map 20 pf_demo false root tied_doc [] heap_empty)) = None.
Proof.
  split; [apply tied_foreign|]. split; [compute_now|]. split; [apply plain_b_ok; compute_now|]. split; [compute_now|].
  split; [compute_now|]. split; compute_now.
Qed.

(** *** C88 *)
(** A single end the document states is the object named. *)
Theorem C88_stated t pm base rdf f pf err root evs d h d' h' x p y : (t, pm) ∈ tables →
  Sound t h → dict_alive d h → foreign_root base evs → compatible_doc base rdf t pm evs d h → coherent base rdf t pm evs d h →
  reads base rdf t pm (S (S f)) pf err root evs d h = (None, d', h') →
  doc_says base rdf t pm evs d h x p y →
  ∃ o oy, assoc x d' = Some (VRef o) ∧ assoc y d' = Some (VRef oy) ∧ shows t h' o p (VRef oy).
Proof.
  intros Ht Hs Hd Hf Hc Hco Hr Hsay.
  destruct (reads_said t pm Ht base rdf f pf err root evs d h d' h' Hs Hd Hf Hc Hco Hr x p y Hsay) as (o & oy & k & Ho & Hoy & Hk & Hsk & _ & Hv).
  exists o, oy. split_and!; [done..|]. unfold shows. unfold pkind in Hk. destruct (cls_of h' o) as [ck|]; [|done]. exists ck. split; [done|].
  cbn in Hk. rewrite Hk. by destruct k.
Qed.
Print Assumptions C88_stated.
(** A single end of an object of the document that it does not state is
    [None]. *)
Theorem C88_unstated t pm base rdf f pf err root evs d h d' h' x k p kk : (t, pm) ∈ tables →
  Sound t h → dict_alive d h → foreign_root base evs → compatible_doc base rdf t pm evs d h → coherent base rdf t pm evs d h →
  reads base rdf t pm (S (S f)) pf err root evs d h = (None, d', h') →
  declared_class base rdf pm evs x = Some k → lookup_prop t k p = Some kk → match kk with POneMany _ | POneOne _ => True | _ => False end →
  (∀ y, ¬ doc_says base rdf t pm evs d h x p y) →
  ∃ o, assoc x d' = Some (VRef o) ∧ shows t h' o p VNone.
Proof.
  intros Ht Hs Hd Hf Hc Hco Hr Hk Hl Hkk Hno.
  destruct (reads_inv t pm Ht base rdf f pf err root evs d h d' h' Hs Hd Hf Hc Hco Hr) as (h1 & HC & _ & _ & _ & _ & HI).
  destruct (cr_new _ _ _ _ _ _ HC x k Hk) as (o & Ho & Hn & Hck & _). exists o. split; [done|].
  assert (cls_of h' o = Some k) as Hck' by (by rewrite (in_classes _ _ _ _ _ _ _ _ HI)).
  assert (pkind t h' o p = Some kk) as HK by (unfold pkind; by rewrite Hck').
  destruct (reads_single t pm Ht base rdf f pf err root evs d h d' h' Hs Hd Hf Hc Hco Hr o p kk HK) as [(x2 & y2 & oy & Hsay & Hx2 & _)|[_ Hv]]; [by destruct kk| |].
  - exfalso. rewrite (created_unique t pm Ht base rdf evs d h d' h1 x k o Hd HC Hk Ho x2 Hx2) in Hsay. by eapply Hno.
  - exists k. split; [done|]. rewrite Hl. rewrite Hn in Hv. by destruct kk.
Qed.
Print Assumptions C88_unstated.
(** Single ends of the objects there were stay. *)
Theorem C88_kept t pm base rdf f pf err root evs d h d' h' o ck p kk : (t, pm) ∈ tables →
  Sound t h → dict_alive d h → foreign_root base evs → compatible_doc base rdf t pm evs d h → coherent base rdf t pm evs d h →
  reads base rdf t pm (S (S f)) pf err root evs d h = (None, d', h') →
  cls_of h o = Some ck → lookup_prop t ck p = Some kk → match kk with POneMany _ | POneOne _ => True | _ => False end →
  cls_of h' o = Some ck ∧ view h' o (Priv p) = view h o (Priv p).
Proof.
  intros Ht Hs Hd Hf Hc Hco Hr Hck Hl Hkk.
  destruct (reads_old t pm Ht base rdf f pf err root evs d h d' h' Hs Hd Hf Hc Hco Hr o) as [Hcl Hv]; [by rewrite Hck|].
  split; [by rewrite Hcl|]. apply (Hv p kk); [unfold pkind; by rewrite Hcl, Hck|by destruct kk].
Qed.
Print Assumptions C88_kept.
(** The collection at the other end has, once each, the objects it had and
    those the document states to be at this object. *)
Theorem C88_collection t pm base rdf f pf err root evs d h d' h' oy tk q p' : (t, pm) ∈ tables →
  Sound t h → dict_alive d h → foreign_root base evs → compatible_doc base rdf t pm evs d h → coherent base rdf t pm evs d h →
  reads base rdf t pm (S (S f)) pf err root evs d h = (None, d', h') →
  cls_of h' oy = Some tk → lookup_prop t tk q = Some (PManyOne p') →
  ∃ ys, view h' oy (Priv q) = Some (OL ys) ∧ NoDup ys ∧
  ∀ v, v ∈ ys ↔ held h oy q v ∨
    ∃ x p y o ck, doc_says base rdf t pm evs d h x p y ∧ assoc x d' = Some v ∧ assoc y d' = Some (VRef oy) ∧
      v = VRef o ∧ cls_of h' o = Some ck ∧ lookup_prop t ck p = Some (POneMany q).
Proof.
  intros Ht Hs Hd Hf Hc Hco Hr Hck Hl.
  destruct (reads_collection t pm Ht base rdf f pf err root evs d h d' h' Hs Hd Hf Hc Hco Hr oy q p') as (ys & Hv & Hn & Hys); [unfold pkind; by rewrite Hck|].
  exists ys. split_and!; [done..|]. intros v. rewrite Hys. apply or_iff_compat_l. split.
  - intros (x & p & y & o & H1 & H2 & H3 & -> & H4). unfold pkind in H4. destruct (cls_of h' o) as [ck|] eqn:E; [|done].
    exists x, p, y, o, ck. done.
  - intros (x & p & y & o & ck & H1 & H2 & H3 & -> & H4 & H5). exists x, p, y, o. split_and!; try done. unfold pkind. by rewrite H4.
Qed.
Print Assumptions C88_collection.
(** The members of a many-to-many collection are those it had and those the
    document states at either end. *)
Theorem C88_many t pm base rdf f pf err root evs d h d' h' o ck p q : (t, pm) ∈ tables →
  Sound t h → dict_alive d h → foreign_root base evs → compatible_doc base rdf t pm evs d h → coherent base rdf t pm evs d h →
  reads base rdf t pm (S (S f)) pf err root evs d h = (None, d', h') →
  cls_of h' o = Some ck → lookup_prop t ck p = Some (PManyMany q) →
  ∃ ys, view h' o (Priv p) = Some (OL ys) ∧
  ∀ v, v ∈ ys ↔ held h o p v ∨
    ∃ x y, doc_says_many base rdf t pm evs d h x p y ∧ assoc x d' = Some (VRef o) ∧ assoc y d' = Some v.
Proof.
  intros Ht Hs Hd Hf Hc Hco Hr Hck Hl.
  apply (reads_many t pm Ht base rdf f pf err root evs d h d' h' Hs Hd Hf Hc Hco Hr o p q). unfold pkind. by rewrite Hck.
Qed.
Print Assumptions C88_many.
Lemma both_coherent : coherent Bb R bal bal_map both_doc [] heap_empty.
Proof. apply coherent_b_ok. compute_now. Qed.
Example C88_example :
  Sound topo heap_empty ∧ foreign_root Bt tied_doc ∧ compatible_doc Bt R topo topo_map tied_doc [] heap_empty ∧
  coherent Bt R topo topo_map tied_doc [] heap_empty ∧
  doc_says Bt R topo topo_map tied_doc [] heap_empty (u "t1") n_TopologicalNode (u "n1") ∧
  (let '(x, d', h') := reads Bt R topo topo_map 20 pf_demo false root tied_doc [] heap_empty in
   x = None ∧ map fst d' = [u "c1"; u "n1"; u "t1"] ∧ assoc (u "n1") d' = Some (VRef 1) ∧
   cls_of h' 1 = Some n_CIM14_CPSM_Topology_Topology_TopologicalNode_TopologicalNode ∧
   view h' 2 (Priv n_TopologicalNode) = Some (OV (VRef 1)) ∧ view h' 1 (Priv n_BaseVoltage) = Some (OV VNone) ∧
   view h' 1 (Priv n_Terminal) = Some (OL [VRef 2])) ∧
  lookup_prop topo n_CIM14_CPSM_Topology_Topology_TopologicalNode_TopologicalNode n_Terminal = Some (PManyOne n_TopologicalNode) ∧
  foreign_root Bb both_doc ∧ compatible_doc Bb R bal bal_map both_doc [] heap_empty ∧ coherent Bb R bal bal_map both_doc [] heap_empty ∧
  lookup_prop bal n_CIM15_CDPSM_Balanced_IEC61970_Wires_TransformerMeshImpedance_TransformerMeshImpedance n_ToTransformerEnd = Some (PManyMany n_ToMeshImpedance).
Proof.
  split; [apply Sound_empty|]. split; [apply tied_foreign|]. split; [apply tied_compatible|]. split; [apply tied_coherent|].
  split.
  { eapply says_single with (q := n_Terminal) (ck := n_CIM14_CPSM_Topology_Core_Terminal_Terminal); [|compute_now|compute_now].
    exists (pel_elem Bt (ref "Terminal.TopologicalNode" "#n1")). split; [|split; [repeat split; compute_now|]].
    - apply elem_of_list_In. assert (nth_error (doc_statements Bt R topo_map tied_doc []) 5 = Some (u "t1", pel_elem Bt (ref "Terminal.TopologicalNode" "#n1"))) as E by compute_now.
      by eapply nth_error_In.
    - eexists. compute_now. }
  split; [vm_compute; by split_and!|]. split; [compute_now|]. split; [apply foreign_b_ok; compute_now|].
  split; [apply compatible_doc_b_ok; compute_now|]. split; [apply both_coherent|]. compute_now.
Qed.

(** *** C90 *)
(** Reading a document that parses, whose objects can be made and whose
    references are to ends of associations raises nothing, exactly when the
    statements about each attribute give it a value. *)
Theorem C90_returns t pm base rdf f pf root evs d h : (t, pm) ∈ tables →
  Sound t h → dict_alive d h → foreign_root base evs → compatible_doc base rdf t pm evs d h →
  refers_to_ends base rdf t pm evs d h → self_contained base rdf pm evs d → attributes_plain base rdf t pm evs d →
  instantiable base rdf pm evs →
  (∃ d' h', reads base rdf t pm (S (S f)) pf false root evs d h = (None, d', h')) ↔
  ∀ id k a, declared_class base rdf pm evs id = Some k → plain_attr t k a → about base rdf pm evs d id a ≠ [] →
    ∃ v0 v, starts t k id a v0 ∧ takes_all rdf pf v0 (about base rdf pm evs d id a) v.
Proof.
  intros Ht Hs Hd Hf Hc He Hsc Hp Hi. split.
  - intros (d' & h' & Hr) id k a Hk Hpl _.
    destruct (reads_attribute t pm Ht base rdf (S f) pf false root evs d h d' h' id k a (proj1 (so_consistent _ _ Hs)) Hd Hf Hr Hk Hpl)
      as (o & v0 & v & _ & _ & H1 & H2 & _); [|eauto]. intros e r. by eapply Hp.
  - by apply reads_return.
Qed.
Print Assumptions C90_returns.
(** References cannot make such a read fail: without attributes it returns. *)
Theorem C90_references t pm base rdf f pf root evs d h : (t, pm) ∈ tables →
  Sound t h → dict_alive d h → foreign_root base evs → compatible_doc base rdf t pm evs d h →
  refers_to_ends base rdf t pm evs d h → self_contained base rdf pm evs d → instantiable base rdf pm evs →
  (∀ id e, (id, e) ∈ doc_statements base rdf pm evs d → ∃ a y, reference_elem base rdf e a y ∧ is_Some (class_in base rdf pm evs d h y)) →
  ∃ d' h', reads base rdf t pm (S (S f)) pf false root evs d h = (None, d', h').
Proof.
  intros Ht Hs Hd Hf Hc He Hsc Hi Hall.
  assert (∀ id k a e, declared_class base rdf pm evs id = Some k → plain_attr t k a → e ∉ about base rdf pm evs d id a) as Hno.
  { intros id k a e Hk (_ & Hl & _) Hin. unfold about in Hin. apply elem_of_list_omap in Hin as ([i e'] & Hin & E).
    cbn [fst snd] in E. case_decide as Hde; [|done]. destruct Hde as [-> Ha]. injection E as ->.
    destruct (Hall id e Hin) as (a' & y & Hr & Hy). pose proof Hr as [(_ & _ & _ & Ha') _]. assert (a' = a) as -> by congruence.
    destruct (He id a y k) as [_ Hk2]; [by exists e|unfold class_in; by rewrite Hk|]. by rewrite Hl in Hk2. }
  apply C90_returns; try done.
  - intros id k a e r Hk Hpl Hin. exfalso. by eapply Hno.
  - intros id k a Hk Hpl Hne. exfalso. destruct (about base rdf pm evs d id a) as [|e es] eqn:E; [done|].
    apply (Hno id k a e Hk Hpl). rewrite E. left.
Qed.
Print Assumptions C90_references.
Lemma tied_ends : refers_to_ends Bt R topo topo_map tied_doc [] heap_empty.
Proof. apply ends_b_ok. compute_now. Qed.
Lemma tied_contained : self_contained Bt R topo_map tied_doc [].
Proof. apply contained_b_ok. compute_now. Qed.
Lemma tied_plain : attributes_plain Bt R topo topo_map tied_doc [].
Proof. apply plain_doc_b_ok. compute_now. Qed.
Lemma tied_instantiable : instantiable Bt R topo_map tied_doc.
Proof. apply instantiable_b_ok. compute_now. Qed.
Lemma returned (r : res) : fst (fst r) = None → ∃ d' h', r = (None, d', h').
Proof. destruct r as [[x d'] h']. cbn. intros ->. eauto. Qed.
Example C90_example :
  foreign_root Bt tied_doc ∧ compatible_doc Bt R topo topo_map tied_doc [] heap_empty ∧ refers_to_ends Bt R topo topo_map tied_doc [] heap_empty ∧
  self_contained Bt R topo_map tied_doc [] ∧ attributes_plain Bt R topo topo_map tied_doc [] ∧ instantiable Bt R topo_map tied_doc ∧
  length (doc_statements Bt R topo_map tied_doc []) = 6 ∧
  ∀ id k a, declared_class Bt R topo_map tied_doc id = Some k → plain_attr topo k a → about Bt R topo_map tied_doc [] id a ≠ [] →
    ∃ v0 v, starts topo k id a v0 ∧ takes_all R pf_demo v0 (about Bt R topo_map tied_doc [] id a) v.
Proof.
  split; [apply tied_foreign|]. split; [apply tied_compatible|]. split; [apply tied_ends|]. split; [apply tied_contained|].
  split; [apply tied_plain|]. split; [apply tied_instantiable|]. split; [compute_now|].
  apply (C90_returns topo topo_map Bt R 18 pf_demo root tied_doc [] heap_empty topo_in (Sound_empty _) (dict_alive_nil _)
    tied_foreign tied_compatible tied_ends tied_contained tied_plain tied_instantiable).
  apply returned. compute_now.
Qed.

(** *** C89 *)
Section order.
Context (t : schema) (pm : list (name * name)) (base rdf : pystr) (f : nat) (pf : pystr → option pystr) (d : dict) (h : heap).
Context (err1 err2 : bool) (root1 root2 : elem) (evs1 evs2 : list event) (d1 d2 : dict) (h1 h2 : heap).
(** Documents that make the same statements about every attribute in the same
    order have the same identifiers and, for each, objects of the same class
    with the same attributes, references to corresponding objects and
    corresponding members. *)
Theorem C89_order : (t, pm) ∈ tables → Sound t h → dict_alive d h → foreign_root base evs1 → foreign_root base evs2 →
  same_doc base rdf pm d evs1 evs2 → compatible_doc base rdf t pm evs1 d h → coherent base rdf t pm evs1 d h → attributes_plain base rdf t pm evs1 d →
  reads base rdf t pm (S (S f)) pf err1 root1 evs1 d h = (None, d1, h1) →
  reads base rdf t pm (S (S f)) pf err2 root2 evs2 d h = (None, d2, h2) →
  (∀ id, is_Some (assoc id d1) ↔ is_Some (assoc id d2)) ∧
  ∀ id k, declared_class base rdf pm evs1 id = Some k →
  ∃ o1 o2, assoc id d1 = Some (VRef o1) ∧ assoc id d2 = Some (VRef o2) ∧ cls_of h1 o1 = Some k ∧ cls_of h2 o2 = Some k ∧
    (∀ a, plain_attr t k a → ∃ v, shows t h1 o1 a v ∧ shows t h2 o2 a v) ∧
    (∀ p kk, lookup_prop t k p = Some kk → match kk with POneMany _ | POneOne _ => True | _ => False end →
      ∃ v1 v2, shows t h1 o1 p v1 ∧ shows t h2 o2 p v2 ∧ twins d1 d2 v1 v2) ∧
    (∀ p kk, lookup_prop t k p = Some kk → match kk with PManyOne _ | PManyMany _ => True | _ => False end →
      ∃ ys1 ys2, view h1 o1 (Priv p) = Some (OL ys1) ∧ view h2 o2 (Priv p) = Some (OL ys2) ∧
        (∀ v1, v1 ∈ ys1 → ∃ v2, v2 ∈ ys2 ∧ twins d1 d2 v1 v2) ∧ (∀ v2, v2 ∈ ys2 → ∃ v1, v1 ∈ ys1 ∧ twins d1 d2 v1 v2)).
Proof.
  intros Ht Hs Hd Hf1 Hf2 Hsd Hc1 Hco1 Hp1 Hr1 Hr2.
  pose proof (same_coherent _ _ _ _ _ _ _ _ Hsd Hco1) as Hco2. pose proof (same_compatible _ _ _ _ _ _ _ _ Hsd Hd Hc1) as Hc2.
  pose proof (same_doc_sym _ _ _ _ _ _ Hsd) as Hsd'.
  destruct (reads_inv t pm Ht base rdf f pf err1 root1 evs1 d h d1 h1 Hs Hd Hf1 Hc1 Hco1 Hr1) as (g1 & HC1 & Hd1 & Hcl1 & _ & _ & HI1).
  destruct (reads_inv t pm Ht base rdf f pf err2 root2 evs2 d h d2 h2 Hs Hd Hf2 Hc2 Hco2 Hr2) as (g2 & HC2 & Hd2 & Hcl2 & _ & _ & HI2).
  assert (∀ id, is_Some (assoc id d1) ↔ is_Some (class_in base rdf pm evs1 d h id)) as Hk1.
  { intros id. rewrite Hcl1. destruct (assoc id d1) as [v|] eqn:E; [|by split; intros [? ?]]. destruct (Hd1 _ _ E) as (o & -> & ?). split; [done|eauto]. }
  assert (∀ id, is_Some (assoc id d2) ↔ is_Some (class_in base rdf pm evs2 d h id)) as Hk2.
  { intros id. rewrite Hcl2. destruct (assoc id d2) as [v|] eqn:E; [|by split; intros [? ?]]. destruct (Hd2 _ _ E) as (o & -> & ?). split; [done|eauto]. }
  assert (∀ id, is_Some (assoc id d1) ↔ is_Some (assoc id d2)) as Hkeys by (intros id; by rewrite Hk1, Hk2, (same_class _ _ _ _ _ _ Hsd)).
  split; [done|]. intros id k Hk. pose proof Hk as Hk'. rewrite (proj1 Hsd) in Hk'.
  destruct (cr_new _ _ _ _ _ _ HC1 id k Hk) as (o1 & Ho1 & Hn1 & Hck1 & _). rewrite <- (in_classes _ _ _ _ _ _ _ _ HI1) in Hck1.
  destruct (cr_new _ _ _ _ _ _ HC2 id k Hk') as (o2 & Ho2 & Hn2 & Hck2 & _). rewrite <- (in_classes _ _ _ _ _ _ _ _ HI2) in Hck2.
  pose proof (created_unique t pm Ht base rdf evs1 d h d1 g1 id k o1 Hd HC1 Hk Ho1) as Hu1.
  pose proof (created_unique t pm Ht base rdf evs2 d h d2 g2 id k o2 Hd HC2 Hk' Ho2) as Hu2.
  assert (∀ g o q v, cls_of g o = None → ¬ held g o q v) as Hnh.
  { intros g o q v Hg (ys & Hv & _). unfold view in Hv. destruct (slot g o (Priv q)) eqn:E; [|done].
    apply HeapFacts.slot_cls in E. rewrite Hg in E. by destruct E. }
  exists o1, o2. split_and!; try done.
  - intros a Hpl.
    destruct (C87_same t pm base rdf (S f) (S f) pf err1 err2 root1 root2 evs1 evs2 d d h h d1 d2 h1 h2 id k a Ht
      (proj1 (so_consistent _ _ Hs)) Hd Hf1 Hr1 (proj1 (so_consistent _ _ Hs)) Hd Hf2 Hr2 Hk Hk' Hpl) as (o1' & o2' & v & E1 & E2 & H1 & H2).
    + intros e r. by eapply Hp1.
    + apply Hsd.
    + rewrite Ho1 in E1. rewrite Ho2 in E2. injection E1 as <-. injection E2 as <-. eauto.
  - intros p kk Hl Hkk.
    assert (pkind t h1 o1 p = Some kk) as HK1 by (unfold pkind; by rewrite Hck1).
    assert (single_kind kk = true) as Hsk by (by destruct kk).
    assert (∀ v, view h1 o1 (Priv p) = Some (OV v) → shows t h1 o1 p v) as Hsh1.
    { intros v Hv. exists k. split; [done|]. rewrite Hl. by destruct kk. }
    assert (∀ v, view h2 o2 (Priv p) = Some (OV v) → shows t h2 o2 p v) as Hsh2.
    { intros v Hv. exists k. split; [done|]. rewrite Hl. by destruct kk. }
    destruct (reads_single t pm Ht base rdf f pf err1 root1 evs1 d h d1 h1 Hs Hd Hf1 Hc1 Hco1 Hr1 o1 p kk HK1 Hsk) as [(x & y & oy & Hsay & Hx & Hy & Hv)|[Hno Hv]].
    + assert (x = id) as -> by (by apply Hu1). apply (same_says _ _ _ _ _ _ _ _ Hsd) in Hsay.
      destruct (reads_said t pm Ht base rdf f pf err2 root2 evs2 d h d2 h2 Hs Hd Hf2 Hc2 Hco2 Hr2 id p y Hsay) as (o & oy2 & kk2 & Ho & Hoy2 & _ & _ & _ & Hv2).
      rewrite Ho2 in Ho. injection Ho as <-. exists (VRef oy), (VRef oy2). split_and!; [by apply Hsh1|by apply Hsh2|]. right. eauto.
    + rewrite Hn1 in Hv.
      destruct (C88_unstated t pm base rdf f pf err2 root2 evs2 d h d2 h2 id k p kk Ht Hs Hd Hf2 Hc2 Hco2 Hr2 Hk' Hl Hkk) as (o & Ho & Hsh).
      { intros y Hsay. apply (same_says _ _ _ _ _ _ _ _ Hsd') in Hsay. by eapply Hno. }
      rewrite Ho2 in Ho. injection Ho as <-. exists VNone, VNone. split_and!; [by apply Hsh1|done|by left].
  - intros p kk Hl Hkk. destruct kk as [|p'| |q| | |]; try done.
    + destruct (C88_collection t pm base rdf f pf err1 root1 evs1 d h d1 h1 o1 k p p' Ht Hs Hd Hf1 Hc1 Hco1 Hr1 Hck1 Hl) as (ys1 & Hv1 & _ & Hys1).
      destruct (C88_collection t pm base rdf f pf err2 root2 evs2 d h d2 h2 o2 k p p' Ht Hs Hd Hf2 Hc2 Hco2 Hr2 Hck2 Hl) as (ys2 & Hv2 & _ & Hys2).
      exists ys1, ys2. split_and!; [done..| |].
      * intros v1 Hin. apply Hys1 in Hin as [Hh|(x & p0 & y & o & ck & Hsay & Hx & Hy & -> & Hck & Hp0)]; [by eapply Hnh in Hh|].
        assert (y = id) as -> by (by apply Hu1). pose proof Hsay as Hsay2. apply (same_says _ _ _ _ _ _ _ _ Hsd) in Hsay2.
        destruct (reads_said t pm Ht base rdf f pf err2 root2 evs2 d h d2 h2 Hs Hd Hf2 Hc2 Hco2 Hr2 x p0 id Hsay2) as (ox & oy & kk2 & Hox & Hoy & HKx & _ & _ & _).
        exists (VRef ox). split; [|right; eauto]. apply Hys2. right. exists x, p0, id, ox. unfold pkind in HKx.
        destruct (cls_of h2 ox) as [ck2|] eqn:Eck; [|done]. exists ck2. split_and!; try done.
        assert (ck2 = ck) as -> by (
          pose proof (Hcl1 x) as E1; rewrite Hx in E1; cbn in E1; rewrite <- (in_classes _ _ _ _ _ _ _ _ HI1), Hck in E1;
          pose proof (Hcl2 x) as E2; rewrite Hox in E2; cbn in E2; rewrite <- (in_classes _ _ _ _ _ _ _ _ HI2), Eck in E2;
          rewrite (same_class _ _ _ _ _ _ Hsd) in E1; congruence). done.
      * intros v2 Hin. apply Hys2 in Hin as [Hh|(x & p0 & y & o & ck & Hsay & Hx & Hy & -> & Hck & Hp0)]; [by eapply Hnh in Hh|].
        assert (y = id) as -> by (by apply Hu2). pose proof Hsay as Hsay2. apply (same_says _ _ _ _ _ _ _ _ Hsd') in Hsay2.
        destruct (reads_said t pm Ht base rdf f pf err1 root1 evs1 d h d1 h1 Hs Hd Hf1 Hc1 Hco1 Hr1 x p0 id Hsay2) as (ox & oy & kk2 & Hox & Hoy & HKx & _ & _ & _).
        exists (VRef ox). split; [|right; eauto]. apply Hys1. right. exists x, p0, id, ox. unfold pkind in HKx.
        destruct (cls_of h1 ox) as [ck2|] eqn:Eck; [|done]. exists ck2. split_and!; try done.
        assert (ck2 = ck) as -> by (
          pose proof (Hcl2 x) as E1; rewrite Hx in E1; cbn in E1; rewrite <- (in_classes _ _ _ _ _ _ _ _ HI2), Hck in E1;
          pose proof (Hcl1 x) as E2; rewrite Hox in E2; cbn in E2; rewrite <- (in_classes _ _ _ _ _ _ _ _ HI1), Eck in E2;
          rewrite (same_class _ _ _ _ _ _ Hsd) in E2; congruence). done.
    + destruct (C88_many t pm base rdf f pf err1 root1 evs1 d h d1 h1 o1 k p q Ht Hs Hd Hf1 Hc1 Hco1 Hr1 Hck1 Hl) as (ys1 & Hv1 & Hys1).
      destruct (C88_many t pm base rdf f pf err2 root2 evs2 d h d2 h2 o2 k p q Ht Hs Hd Hf2 Hc2 Hco2 Hr2 Hck2 Hl) as (ys2 & Hv2 & Hys2).
      exists ys1, ys2. split_and!; [done..| |].
      * intros v1 Hin. apply Hys1 in Hin as [Hh|(x & y & Hsay & Hx & Hy)]; [by eapply Hnh in Hh|].
        assert (x = id) as -> by (by apply Hu1). apply (same_says_many _ _ _ _ _ _ _ _ Hsd) in Hsay.
        destruct (proj1 (Hkeys y)) as [v2 Hy2]; [by rewrite Hy|]. exists v2. split; [|right; eauto]. apply Hys2. right. eauto.
      * intros v2 Hin. apply Hys2 in Hin as [Hh|(x & y & Hsay & Hx & Hy)]; [by eapply Hnh in Hh|].
        assert (x = id) as -> by (by apply Hu2). apply (same_says_many _ _ _ _ _ _ _ _ Hsd') in Hsay.
        destruct (proj2 (Hkeys y)) as [v1 Hy1]; [by rewrite Hy|]. exists v1. split; [|right; eauto]. apply Hys1. right. eauto.
Qed.
End order.
Print Assumptions C89_order.
(** Changing the order of the objects of a flat document with distinct
    identifiers, and of the properties of each that are not about the same
    attribute, does not change what it says. *)
Theorem C89_reordered base rdf pm d root items items' : in_base base root = false →
  Forall (flat_ok base rdf) items → distinct_ids rdf items → reordered items items' →
  same_doc base rdf pm d (flat base items ++ [EEnd root]) (flat base items' ++ [EEnd root]).
Proof. intros Hr Hok Hd Ho. by apply reordered_same. Qed.
Print Assumptions C89_reordered.
(** Both or neither of two documents that say the same is read without an
    exception. *)
Theorem C89_returns t pm base rdf f pf root1 root2 evs1 evs2 d h d1 h1 : (t, pm) ∈ tables →
  Sound t h → dict_alive d h → foreign_root base evs1 → foreign_root base evs2 → same_doc base rdf pm d evs1 evs2 →
  compatible_doc base rdf t pm evs1 d h → refers_to_ends base rdf t pm evs1 d h → self_contained base rdf pm evs1 d →
  attributes_plain base rdf t pm evs1 d → instantiable base rdf pm evs2 →
  reads base rdf t pm (S (S f)) pf false root1 evs1 d h = (None, d1, h1) →
  ∃ d2 h2, reads base rdf t pm (S (S f)) pf false root2 evs2 d h = (None, d2, h2).
Proof.
  intros Ht Hs Hd Hf1 Hf2 Hsd Hc He Hsc Hp Hi Hr.
  apply C90_returns; try done.
  - by eapply same_compatible.
  - by eapply same_ends.
  - by eapply same_contained.
  - by eapply same_plain.
  - intros id k a. rewrite <- (proj1 Hsd), <- (proj2 Hsd). intros Hk Hpl _.
    destruct (reads_attribute t pm Ht base rdf (S f) pf false root1 evs1 d h d1 h1 id k a (proj1 (so_consistent _ _ Hs)) Hd Hf1 Hr Hk Hpl)
      as (o & v0 & v & _ & _ & H1 & H2 & _); [|eauto]. intros e r. by eapply Hp.
Qed.
Print Assumptions C89_returns.
(** A single end stated twice is the object named first: the order of the
    properties matters. *)
Definition rival_items (a b : string) : list item := [
  obj "ConnectivityNode" "c1" [ref "ConnectivityNode.TopologicalNode" a; ref "ConnectivityNode.TopologicalNode" b];
  obj "TopologicalNode" "n1" []; obj "TopologicalNode" "n2" []].
Theorem C89_rivals_refuted :
  let read_it (a b : string) := reads Bt R topo topo_map 20 pf_demo false root (flat Bt (rival_items a b) ++ [EEnd root]) [] heap_empty in
  let '(x1, d1, h1) := read_it "#n1"%string "#n2"%string in let '(x2, d2, h2) := read_it "#n2"%string "#n1"%string in
  x1 = None ∧ x2 = None ∧ d1 = d2 ∧ assoc (u "c1") d1 = Some (VRef 0) ∧
  view h1 0 (Priv n_TopologicalNode) = Some (OV (VRef 1)) ∧ view h2 0 (Priv n_TopologicalNode) = Some (OV (VRef 2)).
Proof. vm_compute. by split_and!. Qed.
Print Assumptions C89_rivals_refuted.
(** How often a many-to-many collection has a member depends on the order of
    the objects. *)
Definition both_doc' : list event :=
  flat Bb [obj "TransformerMeshImpedance" "m1" [ref "TransformerMeshImpedance.ToTransformerEnd" "#e1"];
           obj "TransformerEnd" "e1" [ref "TransformerEnd.ToMeshImpedance" "#m1"]] ++ [EEnd root].
Theorem C89_multiplicity_refuted :
  let '(x1, d1, h1) := reads Bb R bal bal_map 20 pf_demo false root both_doc [] heap_empty in
  let '(x2, d2, h2) := reads Bb R bal bal_map 20 pf_demo false root both_doc' [] heap_empty in
  x1 = None ∧ x2 = None ∧ assoc (u "m1") d1 = Some (VRef 1) ∧ assoc (u "m1") d2 = Some (VRef 0) ∧
  view h1 1 (Priv n_ToTransformerEnd) = Some (OL [VRef 0; VRef 0]) ∧ view h2 0 (Priv n_ToTransformerEnd) = Some (OL [VRef 1]).
Proof. vm_compute. by split_and!. Qed.
Print Assumptions C89_multiplicity_refuted.
Lemma tied_reordered : reordered tied_items tied_items'.
Proof.
  eexists. split; [apply rotate|]. unfold tied_items'.
  apply List.Forall2_cons; [apply same_item_b_ok; compute_now|]. apply List.Forall2_cons; [apply same_item_b_ok; compute_now|].
  apply List.Forall2_cons; [apply same_item_b_ok; compute_now|]. apply List.Forall2_nil.
Qed.
Example C89_example :
  in_base Bt root = false ∧ Forall (flat_ok Bt R) tied_items ∧ distinct_ids R tied_items ∧ reordered tied_items tied_items' ∧
  foreign_root Bt tied_doc' ∧ instantiable Bt R topo_map tied_doc' ∧
  coherent Bt R topo topo_map tied_doc [] heap_empty ∧ attributes_plain Bt R topo topo_map tied_doc [] ∧
  let '(x1, d1, h1) := reads Bt R topo topo_map 20 pf_demo false root tied_doc [] heap_empty in
  let '(x2, d2, h2) := reads Bt R topo topo_map 20 pf_demo false root tied_doc' [] heap_empty in
  x1 = None ∧ x2 = None ∧ map fst d1 = [u "c1"; u "n1"; u "t1"] ∧ map fst d2 = [u "t1"; u "c1"; u "n1"] ∧
  view h1 0 (Pub n_name) = Some (OV (VStr (u "second"))) ∧ view h2 1 (Pub n_name) = Some (OV (VStr (u "second"))) ∧
  view h1 0 (Priv n_TopologicalNode) = Some (OV (VRef 1)) ∧ view h2 1 (Priv n_TopologicalNode) = Some (OV (VRef 2)).
Proof.
  split; [compute_now|]. split; [apply flat_ok_b_ok; compute_now|].
  split; [apply (bool_decide_eq_true_1 (distinct_ids R tied_items)); compute_now|]. split; [apply tied_reordered|]. split; [apply foreign_b_ok; compute_now|].
  split; [apply instantiable_b_ok; compute_now|]. split; [apply tied_coherent|]. split; [apply tied_plain|]. vm_compute. by split_and!.
Qed.
