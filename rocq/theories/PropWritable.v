(** When cimwrite succeeds (PyCIM/RDFXMLWriter.py), and that it does with what
    was read (PyCIM/RDFXMLReader.py). *)
From Coq Require Import String ZArith.
From stdpp Require Import prelude gmap.
From Verif Require Import PyStr PyHeap Schema Assoc AssocSpec TableSpec TableFacts HeapFacts Reader ReaderSpec ReaderFacts FrameFacts CreateFacts
  StatementFacts ReaderTabs CompatFacts ReadSound ReadStepFacts ReadDocFacts Names TabProfiles Tables DocSpec DocFacts RefFacts
  ReturnFacts OrderFacts ReadDemo DocDemo PropReader PropDoc PartsSpec PartsFacts PropParts ExportSpec.
From Verif Require Import XmlWriter XmlCalls XmlSpec XmlDocFacts WriteSpec CimWriter WriteFacts WriteDocFacts WriteTables PropWriter PropExport
  WritableSpec.
From Verif Require BlankFacts RoundTables RoundFacts AgainFacts PropOutput.

Lemma listed_ex {A B} (P : A → list B → Prop) l : (∀ x, x ∈ l → ∃ r, P x r) → ∃ r, listed P l r.
Proof.
  induction l as [|x l IH]; intros H; [exists []; constructor|]. destruct (H x) as [r Hr]; [by left|].
  destruct IH as [r' Hr']; [intros y Hy; apply H; by right|]. exists (r ++ r'). by constructor.
Qed.
Lemma listed_each {A B} (P : A → list B → Prop) l r : listed P l r → ∀ x, x ∈ l → ∃ r', P x r'.
Proof. induction 1 as [|x l r r' Hx Hl IH]; intros y Hy; [by apply elem_of_nil in Hy|]. apply elem_of_cons in Hy as [->|Hy]; eauto. Qed.
Lemma text_no_object v : no_object v ↔ ∃ s, text_of v s.
Proof.
  split; [|intros [s []]; done]. destruct v as [|[]| | | | |]; intros H; try done; eexists; constructor.
Qed.
(** No class has a property UUID. *)
Definition no_uuid_prop (t : schema) (_ : list (name * name)) : bool := forallb (λ c, forallb (λ x, negb (str_eqb (u "UUID") x.1)) (c_props c)) t.
Lemma no_uuid_prop_true : all_tables no_uuid_prop = true.
Proof. vm_compute. reflexivity. Qed.
Lemma uuid_plain t pm k : (t, pm) ∈ tables → lookup_prop t k (u "UUID") = None.
Proof.
  intros Ht. destruct (lookup_prop t k (u "UUID")) as [kk|] eqn:E; [|done]. apply lookup_in_props in E as (c & Hc%mro_sub & Hin).
  pose proof (all_tables_ok _ _ _ no_uuid_prop_true Ht) as H. apply (all_rows_ok _ _ _ H) in Hc. apply (all_rows_ok _ _ _ Hc) in Hin.
  cbn beta iota delta [fst] in Hin. by rewrite str_eqb_refl in Hin.
Qed.
Lemma mro_unknown t k : find_cls t k = None → mro t k = [].
Proof. intros E. unfold mro. destruct t as [|c t]; [done|]. cbn [length mro_fuel]. by rewrite E. Qed.
(** The attributes of an object and the identifiers of those it refers to. *)
Definition values_of (t : schema) (h : heap) (o : nat) : Prop := ∀ ck c, cls_of h o = Some ck → c ∈ mro t ck →
  (∀ a v, a ∈ c_attrs c → a ≠ u "UUID" → sees t h o a v → no_object v) ∧
  ∀ p x i, p ∈ c_refs c → p ∉ c_many c → sees t h o p (VRef x) → sees t h x (u "UUID") i → no_object i.

(** *** C111 *)
(** What is to be written for an object exists exactly when it is writable. *)
Lemma writes_writable t pm fint cim h o : (t, pm) ∈ tables → values_of t h o → (∀ ck, cls_of h o = Some ck → ck ∉ unconstructible) →
  (∃ e, Writes t fint cim h o e) ↔ Writable t h o.
Proof.
  intros Ht Hvals Hu.
  split.
  - intros (e & k & top & below & as_ & es & rs & Hc & Hf & Em & Hn & Hs & H1 & H2 & H3 & Hp).
    pose proof (RoundTables.round_ok t pm _ _ Ht Hf (Hu _ Hc)) as Hrc. destruct (RoundTables.round_split _ _ Hrc below top Em) as (T1 & T2 & T3).
    split; [eauto..| |].
    + intros ck c a Hck Hin Ha. assert (ck = c_key k) as -> by congruence. rewrite Em in Hin. apply elem_of_app in Hin as [Hin| ->%elem_of_list_singleton].
      * destruct (listed_each _ _ _ H1 c) as [r1 L1]; [by apply elem_of_reverse|]. destruct (listed_each _ _ _ L1 a Ha) as [r1' A1].
        destruct (listed_each _ _ _ H2 c) as [r2 L2]; [by apply elem_of_reverse|]. destruct (listed_each _ _ _ L2 a Ha) as [r2' A2].
        destruct A1 as [[Hen _]|(Hen & v & dv & Hv & _ & [[Heq _]|(_ & s & Hts & _)])].
        -- destruct A2 as [[? _]|(dt & v & s & _ & Hv & Hts & _)]; [done|]. by exists v.
        -- by exists v.
        -- by exists v.
      * rewrite (T1 a Ha). by exists (VStr (en_id e)).
    + intros ck c p Hck Hin Ha Hm. assert (ck = c_key k) as -> by congruence. rewrite Em in Hin. apply elem_of_app in Hin as [Hin| ->%elem_of_list_singleton].
      * destruct (listed_each _ _ _ H3 c) as [r1 L1]; [by apply elem_of_reverse|]. destruct (listed_each _ _ _ L1 p Ha) as [r1' A1].
        destruct A1 as [[? _]|[_ [[Hv _]|(x & i & s & Hv & Hi & Hts & _)]]]; [done|by left|]. right. by exists x, i.
      * rewrite T2 in Ha. by apply elem_of_nil in Ha.
  - intros [(k & Hc & Hf) (id & Hid) Hat Hre].
    destruct (mro_snoc t _ _ Hf) as (below & top & Em).
    pose proof (RoundTables.round_ok t pm _ _ Ht Hf (Hu _ Hc)) as Hrc. destruct (RoundTables.round_split _ _ Hrc below top Em) as (_ & _ & T3).
    assert (∀ c, c ∈ reverse below → c ∈ below ∧ c ∈ mro t (c_key k)) as Hb.
    { intros c Hin. rewrite elem_of_reverse in Hin. split; [done|]. rewrite Em. apply elem_of_app. by left. }
    destruct (listed_ex (λ c, listed (attr_out t fint h o c) (c_attrs c)) (reverse below)) as [as_ H1].
    { intros c [Hbc Hm]%Hb. apply listed_ex. intros a Ha. destruct (Hat _ c a Hc Hm Ha) as (v & Hv). assert (no_object v) as Hno by (eapply (proj1 (Hvals _ c Hc Hm)); [done|by eapply T3|done]).
      destruct (RoundTables.round_attr_ok _ _ Hrc c a Hm Ha) as [_ Hd]; [by eapply T3|].
      destruct (assoc a (c_enums c)) as [dt|] eqn:Een; [exists []; left; by rewrite Een|]. destruct Hd as (dv & Hd & _).
      apply text_no_object in Hno as [s Hts].
      destruct (py_eq fint v dv) eqn:Eq.
      - exists []. right. split; [done|]. exists v, dv. split_and!; [done..|]. left. split; [by apply py_eq_equal|done].
      - exists [PText (ptag c a) s]. right. split; [done|]. exists v, dv. split_and!; [done..|]. right. split; [rewrite <- py_eq_equal; congruence|eauto]. }
    destruct (listed_ex (λ c, listed (enum_out t cim h o c) (c_attrs c)) (reverse below)) as [es H2].
    { intros c [Hbc Hm]%Hb. apply listed_ex. intros a Ha. destruct (Hat _ c a Hc Hm Ha) as (v & Hv). assert (no_object v) as Hno by (eapply (proj1 (Hvals _ c Hc Hm)); [done|by eapply T3|done]).
      apply text_no_object in Hno as [s Hts].
      destruct (assoc a (c_enums c)) as [dt|] eqn:Een; [|exists []; by left]. eexists. right. exists dt, v, s. by split_and!. }
    destruct (listed_ex (λ c, listed (ref_out t h o c) (c_refs c)) (reverse below)) as [rs H3].
    { intros c [Hbc Hm]%Hb. apply listed_ex. intros p Hp. destruct (decide (p ∈ c_many c)) as [Hpm|Hpm]; [exists []; by left|].
      destruct (Hre _ c p Hc Hm Hp Hpm) as [Hv|(x & i & Hv & Hi)].
      - exists []. right. split; [done|]. by left.
      - assert (no_object i) as Hno by (by eapply (proj2 (Hvals _ c Hc Hm))). apply text_no_object in Hno as [s Hts]. eexists. right. split; [done|]. right. exists x, i, s. by split_and!. }
    exists (Entry (c_name k) id (as_ ++ es ++ rs)), k, top, below, as_, es, rs. by split_and!.
Qed.
Lemma exact_with t pm fint d enc h : (t, pm) ∈ tables → (∀ id o, (id, VRef o) ∈ d → values_of t h o) →
  (∀ id o ck, (id, VRef o) ∈ d → cls_of h o = Some ck → ck ∉ unconstructible) →
  (∃ w, writes_to t fint d enc h = (inl tt, h, w)) ↔ ∀ id v, (id, v) ∈ d → ∃ o, v = VRef o ∧ Writable t h o.
Proof.
  intros Ht Hvals Hu.
  assert ((∃ w, writes_to t fint d enc h = (inl tt, h, w)) ↔ ∃ h' w, writes_to t fint d enc h = (inl tt, h', w)) as ->.
  { split; [intros [w Hw]; eauto|]. intros (h' & w & Hw). exists w. assert (h' = h) as -> by (by apply writes_spec in Hw as [-> _]). done. }
  rewrite C51_returns. unfold Writes_all. split.
  - intros [es Hes] id v Hin. apply elem_of_list_lookup in Hin as [i Hi]. destruct (Forall2_lookup_l _ _ _ _ _ Hes Hi) as (e & He & o & Eo & Hw).
    cbn [snd] in Eo. subst v. exists o. split; [done|]. apply (writes_writable t pm fint cim_ns h o Ht); [eapply Hvals; by eapply elem_of_list_lookup_2| |eauto].
    intros ck. eapply Hu. by eapply elem_of_list_lookup_2.
  - intros H. assert (∀ d0 : dict, (∀ x, x ∈ d0 → x ∈ d) → ∃ es, Forall2 (λ kv e, ∃ o, kv.2 = VRef o ∧ Writes t fint cim_ns h o e) d0 es) as Hall.
    { induction d0 as [|[id v] d0 IH]; intros Hsub; [exists []; constructor|]. destruct IH as [es Hes]; [intros x Hx; apply Hsub; by right|].
      assert ((id, v) ∈ d) as Hin by (apply Hsub; by left). destruct (H id v Hin) as (o & -> & Hwr).
      apply (writes_writable t pm fint cim_ns h o Ht) in Hwr as [e He]; [|by eapply Hvals|intros ck; by eapply Hu]. exists (e :: es). constructor; [|done]. eauto. }
    by apply Hall.
Qed.
(** cimwrite succeeds exactly when every value of the dictionary is a writable
    object. *)
Theorem C111_exact t pm fint d enc h : (t, pm) ∈ tables → holds_values t h →
  (∀ id o ck, (id, VRef o) ∈ d → cls_of h o = Some ck → ck ∉ unconstructible) →
  (∃ w, writes_to t fint d enc h = (inl tt, h, w)) ↔ ∀ id v, (id, v) ∈ d → ∃ o, v = VRef o ∧ Writable t h o.
Proof.
  intros Ht Hvals Hu. apply (exact_with t pm); [done| |done]. intros id o Hin ck c Hck Hm. split.
  - intros a v Ha Hne (ck' & Hck' & Hv). assert (ck' = ck) as -> by congruence.
    assert (∃ c0, find_cls t ck = Some c0) as [c0 Hc0]. { destruct (find_cls t ck) eqn:E; [eauto|]. rewrite (mro_unknown _ _ E) in Hm. by apply elem_of_nil in Hm. }
    pose proof (RoundTables.round_ok t pm _ _ Ht Hc0 (Hu _ _ _ Hin Hck)) as Hrc.
    destruct (RoundTables.round_attr_ok _ _ Hrc c a Hm Ha Hne) as [Hpl _]. pose proof Hpl as (Hpub & Hl & _). rewrite Hl, Hpub in Hv.
    destruct (Hvals o ck a _ Hck (or_introl Hpl) Hv) as (v' & [= <-] & ?). done.
  - intros p x i _ _ _ (ck' & Hck' & Hv). rewrite (uuid_plain t pm ck' Ht) in Hv.
    destruct (Hvals x ck' (u "UUID") _ Hck' (or_intror eq_refl) Hv) as (v & [= <-] & ?). done.
Qed.
Print Assumptions C111_exact.

(** What was read from a document can be written. *)
Lemma read_writable t pm base rdf f pf err root evs h d' h' : (t, pm) ∈ tables →
  Sound t h → foreign_root base evs →
  compatible_doc base rdf t pm evs [] h → coherent base rdf t pm evs [] h → attributes_plain base rdf t pm evs [] →
  instantiable base rdf pm evs → (∀ id k, declared_class base rdf pm evs id = Some k → only_ends t k) →
  reads base rdf t pm (S (S f)) pf err root evs [] h = (None, d', h') →
  ∀ id v, (id, v) ∈ d' → ∃ o k, v = VRef o ∧ declared_class base rdf pm evs id = Some k ∧ cls_of h' o = Some k ∧ values_of t h' o ∧ Writable t h' o.
Proof.
  intros Ht Hs Hf Hc Hco Hp Hi Hex Hr.
  pose proof (reads_sound t pm Ht base rdf f pf err root evs [] h None d' h' Hs (dict_alive_nil _) Hf Hc Hr) as Hs'. specialize (Hs' ltac:(done)).
  assert (NoDup (map fst d')) as Hnd by (eapply reads_nodup; [|exact Hr]; constructor).
  pose proof (C89_order t pm base rdf f pf [] h err err root root evs evs d' d' h' h' Ht Hs (dict_alive_nil _) Hf Hf
    (conj (λ _, eq_refl) (λ _ _, eq_refl)) Hc Hco Hp Hr Hr) as [_ Ha].
  assert (∀ id v, assoc id d' = Some v → ∃ k, declared_class base rdf pm evs id = Some k) as Hdom.
  { intros id v Hv. destruct (reads_inv t pm Ht base rdf f pf err root evs [] h d' h' Hs (dict_alive_nil _) Hf Hc Hco Hr) as (g1 & _ & Hd1 & Hcl1 & _).
    specialize (Hcl1 id). rewrite Hv in Hcl1. destruct (Hd1 _ _ Hv) as (o & -> & [k Hk]). unfold class_in in Hcl1.
    destruct (declared_class base rdf pm evs id); [by eexists|]. cbn in Hcl1. congruence. }
  assert (∀ id k, declared_class base rdf pm evs id = Some k → exports t pm k) as Hcl.
  { intros id k Hk. split; [by eapply declared_tag|]. split; [eapply Hi, declared_in, Hk|exact (Hex id k Hk)]. }
  assert (∀ id k o, declared_class base rdf pm evs id = Some k → assoc id d' = Some (VRef o) → cls_of h' o = Some k ∧
    ∃ s, sees t h' o (u "UUID") (VStr s)) as Hid.
  { intros id k o Hk Ho. destruct (Ha id k Hk) as (o1 & _ & Ho1 & _ & C1 & _). rewrite Ho in Ho1. injection Ho1 as <-. split; [done|].
    pose proof (uuid_attr t pm Ht k (Hcl _ _ Hk)) as Hpl.
    destruct (C87_attribute t pm base rdf (S f) pf err root evs [] h d' h' id k (u "UUID") Ht (proj1 (so_consistent _ _ Hs)) (dict_alive_nil _) Hf Hr Hk Hpl)
      as (o2 & v0 & v & Ho2 & Hs0 & Hta & Hsh).
    { intros e r. by eapply Hp. }
    rewrite Ho in Ho2. injection Ho2 as <-. unfold starts in Hs0. rewrite decide_True in Hs0 by done. subst v0.
    destruct (takes_all_str _ _ _ _ _ Hta) as [s ->]. exists s. destruct Hpl as (_ & Hl & _). by apply (plain_sees _ _ _ _ _ _ C1 Hl). }
  intros id v Hin. assert (assoc id d' = Some v) as Hv by (by apply RoundFacts.assoc_NoDup).
  destruct (Hdom _ _ Hv) as [k Hk]. destruct (Ha id k Hk) as (o & o' & Ho & Ho' & C1 & _ & Hat & Hen & _).
  rewrite Hv in Ho. injection Ho as ->. rewrite Hv in Ho'. injection Ho' as <-. exists o, k. split; [done|]. split; [done|]. split; [done|].
  destruct (Hcl _ _ Hk) as ([tag Htag] & Hun & Hoe). pose proof Htag as Htin%assoc_in.
  destruct (BlankFacts.map_class t pm tag k Ht Htin) as (c0 & Hc0 & _). destruct (BlankFacts.find_cls_in _ _ _ Hc0) as [_ Ek].
  pose proof (RoundTables.round_ok t pm _ _ Ht Hc0 Hun) as Hrc. destruct (mro_snoc t _ _ Hc0) as (below & top & Em).
  destruct (RoundTables.round_split _ _ Hrc below top Em) as (T1 & T2 & T3).
  assert (∀ c p, c ∈ mro t k → p ∈ c_refs c → p ∉ c_many c →
    sees t h' o p VNone ∨ ∃ x s, sees t h' o p (VRef x) ∧ sees t h' x (u "UUID") (VStr s)) as Hrefs; [|split].
  2:{ intros ck c Hck Hm. assert (ck = k) as -> by congruence. split.
    - intros a v Haa Hne (ck' & Hck' & Hvw). assert (ck' = k) as -> by congruence.
      destruct (RoundTables.round_attr_ok _ _ Hrc c a Hm Haa Hne) as [Hpl _]. pose proof Hpl as (Hpub & Hl & _). rewrite Hl, Hpub in Hvw.
      destruct (so_plain _ _ Hs' o k a _ C1 Hpl Hvw) as (w' & [= <-] & Hno). done.
    - intros p x i Hpp Hnm Hx Hxi. destruct (Hrefs c p Hm Hpp Hnm) as [H0|(x' & s & H0 & H1)]; pose proof (sees_det _ _ _ _ _ _ Hx H0) as E; [done|].
      injection E as ->. by rewrite (sees_det _ _ _ _ _ _ Hxi H1). }
  2:{ split.
  - exists c0. rewrite Ek. done.
  - by eapply Hid.
  - intros ck c a Hck Hm Haa. assert (ck = k) as -> by congruence.
    assert (plain_attr t k a) as Hpl.
    { destruct (decide (a = u "UUID")) as [->|Hne]; [by eapply uuid_attr, Hcl|]. by apply (RoundTables.round_attr_ok _ _ Hrc c a Hm Haa). }
    destruct (Hat a Hpl) as (w & S1 & _). pose proof Hpl as (Hpub & Hl & _). apply (plain_sees _ _ _ _ _ _ C1 Hl) in S1. by exists w.
  - intros ck c p Hck Hm Hpp Hnm. assert (ck = k) as -> by congruence. destruct (Hrefs c p Hm Hpp Hnm) as [?|(x & s & ? & ?)]; [by left|]. right. by exists x, (VStr s). }
  - intros c p Hm Hpp Hnm.
    pose proof (Hoe c p Hm Hpp Hnm) as Hkind. pose proof (RoundTables.round_ref_ok _ _ Hrc c p Hm Hpp Hnm) as [_ Hrk].
    destruct (lookup_prop t k p) as [kk|] eqn:El; [|done].
    assert (∀ v1, twins d' d' v1 v1 → v1 = VNone ∨ ∃ x s, v1 = VRef x ∧ sees t h' x (u "UUID") (VStr s)) as Htw.
    { intros v1 [[-> _]|(id' & E1 & _)]; [by left|right]. destruct (Hdom _ _ E1) as [k' Hk']. destruct (Ha id' k' Hk') as (x & _ & F1 & _).
      rewrite E1 in F1. injection F1 as ->. destruct (Hid id' k' x Hk' E1) as [_ [s Hsee]]. eauto. }
    assert (∀ p kk, lookup_prop t k p = Some kk → match kk with POneMany _ | POneOne _ => True | _ => False end →
      ∃ v1, sees t h' o p v1 ∧ (v1 = VNone ∨ ∃ x s, v1 = VRef x ∧ sees t h' x (u "UUID") (VStr s))) as Hend.
    { intros p' kk' Hl' Hkk'. destruct (Hen p' kk' Hl' Hkk') as (v1 & v2 & S1 & S2 & Htwin). exists v1.
      assert (v2 = v1) as ->. { eapply shows_det; [exact C1| |exact S2|exact S1]. intros q c'. rewrite Hl'. intros [= ->]. done. }
      split; [by apply (end_sees _ _ _ _ _ _ _ C1 Hl' Hkk')|by apply Htw]. }
    assert ((∃ q c0, kk = PAlias q c0) ∨ ¬ ∃ q c0, kk = PAlias q c0) as [(target & c1 & ->)|Hna].
    { destruct kk; eauto; right; by intros (? & ? & ?). }
    + destruct Hrk as [q Hq]. destruct (Hend target _ Hq I) as (w & S1 & Hw).
      assert (slot h' o (Priv target) = Some w) as Hslot.
      { destruct S1 as (ck & Hck' & Hvw). assert (ck = k) as -> by congruence. rewrite Hq in Hvw. unfold view in Hvw.
        destruct (slot h' o (Priv target)) as [w'|]; [|done]. cbn in Hvw. destruct w'; try congruence. by destruct (h_lists h' !! l). }
      destruct (decide (val_cls h' w = Some c1)) as [Hvc|Hvc].
      * destruct Hw as [->|(x & s & -> & Hx)]; [done|]. right. exists x, s. split; [|done].
        exists k. split; [done|]. rewrite El. exists (VRef x). split; [done|]. by left.
      * left. exists k. split; [done|]. rewrite El. exists w. split; [done|]. by right.
    + assert (match kk with POneMany _ | POneOne _ => True | _ => False end) as Hkk by (destruct kk; try done; destruct Hna; eauto).
      destruct (Hend p _ El Hkk) as (w & S1 & [->|(x & s & -> & Hx)]); [by left|]. right. by exists x, s.
Qed.
Theorem C111_read t pm base rdf f pf err root evs h d' h' fint enc : (t, pm) ∈ tables →
  Sound t h → foreign_root base evs →
  compatible_doc base rdf t pm evs [] h → coherent base rdf t pm evs [] h → attributes_plain base rdf t pm evs [] →
  instantiable base rdf pm evs → (∀ id k, declared_class base rdf pm evs id = Some k → only_ends t k) →
  reads base rdf t pm (S (S f)) pf err root evs [] h = (None, d', h') →
  ∃ w, writes_to t fint d' enc h' = (inl tt, h', w).
Proof.
  intros Ht Hs Hf Hc Hco Hp Hi Hex Hr.
  pose proof (read_writable t pm base rdf f pf err root evs h d' h' Ht Hs Hf Hc Hco Hp Hi Hex Hr) as H.
  apply (exact_with t pm fint d' enc h' Ht).
  - intros id o Hin. destruct (H _ _ Hin) as (o' & k & [= <-] & _ & _ & Hv & _). done.
  - intros id o ck Hin Hck. destruct (H _ _ Hin) as (o' & k & [= <-] & Hk & Hck' & _). assert (ck = k) as -> by congruence. eapply Hi, declared_in, Hk.
  - intros id v Hin. destruct (H _ _ Hin) as (o & k & -> & _ & _ & _ & Hw). eauto.
Qed.
Print Assumptions C111_read.
(** Documents of the fourteen profiles whose attributes can be converted are
    read and can be written again. *)
Theorem C111_profiles t pm base rdf f pf root evs h fint enc : (t, pm) ∈ profiles → Sound t h → foreign_root base evs →
  compatible_doc base rdf t pm evs [] h → coherent base rdf t pm evs [] h → attributes_plain base rdf t pm evs [] →
  refers_to_ends base rdf t pm evs [] h → self_contained base rdf pm evs [] → instantiable base rdf pm evs →
  (∀ id k a, declared_class base rdf pm evs id = Some k → plain_attr t k a → about base rdf pm evs [] id a ≠ [] →
    ∃ v0 v, starts t k id a v0 ∧ takes_all rdf pf v0 (about base rdf pm evs [] id a) v) →
  ∃ d' h' w, reads base rdf t pm (S (S f)) pf false root evs [] h = (None, d', h') ∧ writes_to t fint d' enc h' = (inl tt, h', w).
Proof.
  intros Hpr Hs Hf Hc Hco Hp He Hsc Hi Hall. assert ((t, pm) ∈ tables) as Ht by (unfold tables; by do 2 right).
  destruct (proj2 (C90_returns t pm base rdf f pf root evs [] h Ht Hs (dict_alive_nil _) Hf Hc He Hsc Hp Hi) Hall) as (d' & h' & Hr).
  destruct (C111_read t pm base rdf f pf false root evs h d' h' fint enc Ht Hs Hf Hc Hco Hp Hi) as [w Hw]; [|done|eauto].
  intros id k Hk. destruct (declared_tag _ _ _ _ _ _ Hk) as [tag Htag]. exact (C94_profiles _ _ _ _ Hpr Htag).
Qed.
Print Assumptions C111_profiles.
(** The document of C87 can be read and written again; in a dictionary with an
    integer nothing can. *)
Example C111_example :
  (topo, topo_map) ∈ profiles ∧ Sound topo heap_empty ∧ foreign_root Bt tied_doc ∧
  compatible_doc Bt R topo topo_map tied_doc [] heap_empty ∧ coherent Bt R topo topo_map tied_doc [] heap_empty ∧
  attributes_plain Bt R topo topo_map tied_doc [] ∧ refers_to_ends Bt R topo topo_map tied_doc [] heap_empty ∧
  self_contained Bt R topo_map tied_doc [] ∧ instantiable Bt R topo_map tied_doc ∧
  (∀ id k a, declared_class Bt R topo_map tied_doc id = Some k → plain_attr topo k a → about Bt R topo_map tied_doc [] id a ≠ [] →
    ∃ v0 v, starts topo k id a v0 ∧ takes_all R pf_demo v0 (about Bt R topo_map tied_doc [] id a) v) ∧
  (let '(x, d, h) := tied_r in
   x = None ∧ map fst d = [u "c1"; u "n1"; u "t1"] ∧ fst (fst (writes_to topo fint_demo d (u "utf-8") h)) = inl tt ∧
   fst (fst (writes_to topo fint_demo (d ++ [(u "five", VInt 5)]) (u "utf-8") h)) = inr AttributeError).
Proof.
  split; [exact topo_profile|]. split; [apply Sound_empty|]. split; [apply tied_foreign|]. split; [apply tied_compatible|]. split; [apply tied_coherent|].
  split; [apply tied_plain|]. split; [apply tied_ends|]. split; [apply tied_contained|]. split; [apply tied_instantiable|].
  split; [apply C90_example|]. vm_compute. by split_and!.
Qed.
Example C111_example_exact : holds_values topo heap_empty ∧
  ¬ (∃ w, writes_to topo fint_demo [(u "five", VInt 5)] (u "utf-8") heap_empty = (inl tt, heap_empty, w)).
Proof.
  assert (holds_values topo heap_empty) as H by (intros o ck a w Hc; done). split; [exact H|].
  rewrite (C111_exact topo topo_map fint_demo [(u "five", VInt 5)] (u "utf-8") heap_empty topo_in H).
  - intros Hall. destruct (Hall (u "five") (VInt 5)) as (o & Ho & _); [by left|congruence].
  - intros id o ck Hin _. apply elem_of_list_singleton in Hin. congruence.
Qed.
