(** Reading a document, writing it and reading it again
    (PyCIM/RDFXMLReader.py, PyCIM/RDFXMLWriter.py). *)
From Coq Require Import String ZArith.
From stdpp Require Import prelude gmap.
From Verif Require Import PyStr PyHeap Schema Assoc AssocSpec TableSpec TableFacts HeapFacts Reader ReaderSpec ReaderFacts FrameFacts CreateFacts
  StatementFacts ReaderTabs CompatFacts ReadSound ReadStepFacts ReadDocFacts Names TabCIM14 TabCIM15 TabProfiles Tables DocSpec DocFacts RefFacts
  ReturnFacts OrderFacts ReadDemo DocDemo PropReader PropDoc PartsSpec PartsFacts PropParts ExportSpec.
From Verif Require Import XmlWriter XmlCalls XmlSpec XmlDocFacts WriteSpec CimWriter WriteFacts WriteDocFacts WriteTables PropWriter PropExport
  WritableSpec PropWritable RoundSpec AgainSpec CleanSpec.
From Verif Require Import BlankFacts.
From Verif Require RoundTables RoundFacts AgainFacts PropRound PropAgain.

(** The enumerations start with a literal, except for one. *)
Notation phase_cls := n_CIM15_IEC61970_WiresPhaseModel_ACLineSegmentPhase_ACLineSegmentPhase.
Definition literal_b (v : val) : bool :=
  match v with VStr s => forallb attr_char s && negb (existsb (N.eqb 46) s) | _ => false end.
Definition enum_cls (k : name) (cs : list cls) : bool :=
  forallb (λ c, forallb (λ x, match ctor_default cs x.1 with Some v => literal_b v | None => false end || str_eqb k phase_cls && str_eqb x.1 n_phase) (c_enums c)) cs.
Definition enum_all (t : schema) (_ : list (name * name)) : bool :=
  let m := cmap t in
  let n := length t in
  forallb (λ c, existsb (str_eqb (c_key c)) unconstructible || enum_cls (c_key c) (mro_map n m (c_key c))) t.
Lemma enum_all_true : all_tables enum_all = true.
Proof. vm_compute. reflexivity. Qed.
Lemma literal_fits v : literal_b v = true → fits_enum v.
Proof.
  destruct v; try done. cbn. intros [H1 H2%negb_true_iff]%andb_true_iff. exists s. split_and!; [done|done|]. intros Hin.
  assert (existsb (N.eqb 46) s = true); [|congruence]. apply existsb_exists. exists 46%N. by rewrite <- elem_of_list_In.
Qed.
Lemma enum_start t pm k c0 c a dt v : (t, pm) ∈ tables → find_cls t k = Some c0 → k ∉ unconstructible → c ∈ mro t k → assoc a (c_enums c) = Some dt →
  ctor_default (mro t k) a = Some v → fits_enum v ∨ k = phase_cls ∧ a = n_phase.
Proof.
  intros Ht Hf Hu Hc Ha Hv. pose proof (all_tables_ok _ _ _ enum_all_true Ht) as H. unfold enum_all in H.
  destruct (find_cls_in _ _ _ Hf) as [Hin <-]. apply (all_rows_ok _ _ _ H) in Hin.
  apply orb_true_iff in Hin as [?%BlankFacts.existsb_str|Hin]; [done|]. rewrite mro_map_mro in Hin. unfold enum_cls in Hin.
  apply (all_rows_ok _ _ _ Hin) in Hc. apply assoc_in in Ha. apply (all_rows_ok _ _ _ Hc) in Ha. cbn beta iota delta [fst] in Ha. rewrite Hv in Ha.
  apply orb_true_iff in Ha as [?%literal_fits|[?%str_eqb_eq ?%str_eqb_eq]%andb_true_iff]; eauto.
Qed.

(** What the elements of a clean document make of an attribute. *)
Lemma attr_char_data s : forallb attr_char s = true → forallb data_char s = true.
Proof. rewrite !forallb_forall. intros H x Hx. specialize (H x Hx). unfold attr_char in H. by apply andb_true_iff in H as [[? _]%andb_true_iff _]. Qed.
Lemma takes_fits rdf pf d v es w : repr_law pf → takes_all rdf pf v es w →
  (∀ e, e ∈ es → resource rdf e = None ∧ ∀ s, e_text e = Some s → forallb data_char s = true) → fits pf d v → fits pf d w.
Proof.
  intros [_ Hpf]. induction 1 as [|v e w es x Htk _ IH]; intros Hes Hv; [done|]. apply IH; [intros e' He'; apply Hes; by right|].
  destruct (Hes e) as [Hn Ht]; [by left|]. inversion Htk; subst; try congruence.
  - match goal with Hc : converts _ _ _ _ |- _ => inversion Hc; subst end; inversion Hv; subst; try by constructor.
    + match goal with Hp : pf _ = Some ?r |- fits _ _ (VFloat ?r) => destruct (Hpf _ _ Hp) as (? & ? & ?) end. by constructor.
    + constructor. by apply Ht.
  - inversion Hv; subst; by constructor.
Qed.
Lemma takes_literal rdf pf v es w : takes_all rdf pf v es w →
  (∀ e, e ∈ es → ∃ r, resource rdf e = Some r ∧ forallb attr_char r = true) → (es = [] → fits_enum v) → fits_enum w.
Proof.
  induction 1 as [|v e w es x Htk _ IH]; intros Hes Hv; [by apply Hv|]. apply IH; [intros e' He'; apply Hes; by right|]. intros _.
  destruct (Hes e) as (r & Hr & Hch); [by left|]. inversion Htk; subst; try congruence. exists s. split_and!; [done| |done].
  match goal with Hu : resource rdf e = Some (?p ++ _) |- _ => rewrite Hu in Hr; injection Hr as <- end.
  rewrite !forallb_app in Hch. by apply andb_true_iff in Hch as [_ [_ ?]%andb_true_iff].
Qed.

(** *** C113 *)
(** What was read from a clean document can go through files, and no reference
    leads out of the dictionary. *)
Theorem C113_portable t pm base rdf f pf err root evs h d' h' : (t, pm) ∈ tables →
  Sound t h → foreign_root base evs →
  compatible_doc base rdf t pm evs [] h → coherent base rdf t pm evs [] h → attributes_plain base rdf t pm evs [] →
  instantiable base rdf pm evs → (∀ id k, declared_class base rdf pm evs id = Some k → only_ends t k) →
  clean_doc base rdf t pm evs → repr_law pf →
  reads base rdf t pm (S (S f)) pf err root evs [] h = (None, d', h') →
  Portable t pm pf h' d' ∧ no_way_out t h' d'.
Proof.
  intros Ht Hs Hf Hc Hco Hp Hi Hex [Hcid Hcu Hcat Hcph] Hpf Hr.
  pose proof (read_writable t pm base rdf f pf err root evs h d' h' Ht Hs Hf Hc Hco Hp Hi Hex Hr) as Hwr.
  pose proof (reads_sound t pm Ht base rdf f pf err root evs [] h None d' h' Hs (dict_alive_nil _) Hf Hc Hr) as Hs'. specialize (Hs' ltac:(done)).
  assert (NoDup (map fst d')) as Hnd by (eapply reads_nodup; [|exact Hr]; constructor).
  assert (∀ id v, (id, v) ∈ d' → assoc id d' = Some v) as Has by (intros; by apply RoundFacts.assoc_NoDup).
  pose proof (C89_order t pm base rdf f pf [] h err err root root evs evs d' d' h' h' Ht Hs (dict_alive_nil _) Hf Hf
    (conj (λ _, eq_refl) (λ _ _, eq_refl)) Hc Hco Hp Hr Hr) as [_ Ha].
  assert (∀ id k, declared_class base rdf pm evs id = Some k → exports t pm k) as Hcl.
  { intros id k Hk. split; [by eapply declared_tag|]. split; [eapply Hi, declared_in, Hk|exact (Hex id k Hk)]. }
  (* the value of an ordinary attribute *)
  assert (∀ id k o a v, declared_class base rdf pm evs id = Some k → assoc id d' = Some (VRef o) → cls_of h' o = Some k → plain_attr t k a →
    sees t h' o a v → ∃ v0, starts t k id a v0 ∧ takes_all rdf pf v0 (about base rdf pm evs [] id a) v) as Hval.
  { intros id k o a v Hk Ho C1 Hpl Hv.
    destruct (C87_attribute t pm base rdf (S f) pf err root evs [] h d' h' id k a Ht (proj1 (so_consistent _ _ Hs)) (dict_alive_nil _) Hf Hr Hk Hpl)
      as (o2 & v0 & v2 & Ho2 & Hs0 & Hta & Hsh).
    { intros e r. by eapply Hp. }
    rewrite Ho in Ho2. injection Ho2 as <-. destruct Hpl as (_ & Hl & _). apply (plain_sees _ _ _ _ _ _ C1 Hl) in Hsh.
    rewrite (sees_det _ _ _ _ _ _ Hv Hsh). eauto. }
  assert (∀ id o, (id, VRef o) ∈ d' → sees t h' o (u "UUID") (VStr id)) as Hid.
  { intros id o Hin. destruct (Hwr _ _ Hin) as (o' & k & [= <-] & Hk & C1 & _ & Hw). destruct (wa_id _ _ _ Hw) as [s Hsee].
    destruct (Hval id k o (u "UUID") _ Hk (Has _ _ Hin) C1 (uuid_attr t pm Ht k (Hcl _ _ Hk)) Hsee) as (v0 & Hs0 & Hta).
    rewrite (Hcu _ _ Hk) in Hta. unfold starts in Hs0. rewrite decide_True in Hs0 by done. subst v0. inversion Hta; subst. done. }
  (* references lead into the dictionary *)
  assert (∀ id o ck c p x, (id, VRef o) ∈ d' → cls_of h' o = Some ck → c ∈ mro t ck → p ∈ c_refs c → p ∉ c_many c → sees t h' o p (VRef x) →
    ∃ i, (i, VRef x) ∈ d') as Hno.
  { intros id o ck c p x Hin Hck Hm Hpp Hnm Hx. destruct (Hwr _ _ Hin) as (o' & k & [= <-] & Hk & C1 & _ & _). assert (ck = k) as -> by congruence.
    destruct (Ha id k Hk) as (o1 & o2 & Ho1 & Ho2 & _ & _ & _ & Hen & _). rewrite (Has _ _ Hin) in Ho1, Ho2. injection Ho1 as <-. injection Ho2 as <-.
    destruct (Hcl _ _ Hk) as ([tag Htag] & Hun & Hoe). pose proof Htag as Htin%assoc_in.
    destruct (BlankFacts.map_class t pm tag k Ht Htin) as (c0 & Hc0 & _).
    pose proof (RoundTables.round_ok t pm _ _ Ht Hc0 Hun) as Hrc.
    pose proof (Hoe c p Hm Hpp Hnm) as Hkind. pose proof (RoundTables.round_ref_ok _ _ Hrc c p Hm Hpp Hnm) as [_ Hrk].
    destruct (lookup_prop t k p) as [kk|] eqn:El; [|done].
    assert (∀ p kk x, lookup_prop t k p = Some kk → match kk with POneMany _ | POneOne _ => True | _ => False end →
      shows t h' o p (VRef x) → ∃ i, (i, VRef x) ∈ d') as Hend.
    { intros p' kk' x' Hl' Hkk' Hx'. destruct (Hen p' kk' Hl' Hkk') as (v1 & v2 & S1 & _ & Htwin).
      assert (v1 = VRef x') as ->. { eapply shows_det; [exact C1| |exact S1|exact Hx']. intros q c'. rewrite Hl'. intros [= ->]. done. }
      destruct Htwin as [[? _]|(i & E & _)]; [done|]. exists i. by apply assoc_in. }
    assert ((∃ q c0, kk = PAlias q c0) ∨ ¬ ∃ q c0, kk = PAlias q c0) as [(target & c1 & ->)|Hna].
    { destruct kk; eauto; right; by intros (? & ? & ?). }
    + destruct Hrk as [q Hq]. apply (Hend target _ x Hq I). destruct Hx as (ck & Hck' & Hxx). assert (ck = k) as -> by congruence. rewrite El in Hxx.
      destruct Hxx as (w & Hw & [[_ <-]|[_ ?]]); [|done]. exists k. split; [done|]. rewrite Hq. unfold view. by rewrite Hw.
    + assert (match kk with POneMany _ | POneOne _ => True | _ => False end) as Hkk by (destruct kk; try done; destruct Hna; eauto).
      apply (Hend p _ x El Hkk). by apply (end_sees _ _ _ _ _ _ _ C1 El Hkk). }
  split; [|exact Hno]. split.
  - done.
  - done.
  - intros id v Hin. destruct (Hwr _ _ Hin) as (o & k & -> & Hk & _). exists o. split; [done|]. split; [by apply Hid|by eapply Hcid].
  - intros id o Hin. destruct (Hwr _ _ Hin) as (o' & k & [= <-] & Hk & C1 & _). destruct (Hcl _ _ Hk) as ([tag Htag] & Hun & _). pose proof Htag as Htin%assoc_in.
    destruct (BlankFacts.map_class t pm tag k Ht Htin) as (c0 & Hc0 & En). destruct (BlankFacts.find_cls_in _ _ _ Hc0) as [_ Ek]. exists c0. rewrite Ek, En. done.
  - intros id o ck c a v Hin Hck Hm Haa Hne Hv. destruct (Hwr _ _ Hin) as (o' & k & [= <-] & Hk & C1 & _). assert (ck = k) as -> by congruence.
    destruct (Hcl _ _ Hk) as ([tag Htag] & Hun & _). pose proof Htag as Htin%assoc_in. destruct (BlankFacts.map_class t pm tag k Ht Htin) as (c0 & Hc0 & _).
    pose proof (RoundTables.round_ok t pm _ _ Ht Hc0 Hun) as Hrc. destruct (RoundTables.round_attr_ok _ _ Hrc c a Hm Haa Hne) as [Hpl Hd].
    destruct (Hval id k o a v Hk (Has _ _ Hin) C1 Hpl Hv) as (v0 & Hs0 & Hta). unfold starts in Hs0. rewrite decide_False in Hs0 by done.
    pose proof (λ e, Hcat id k c a e Hk Hm Haa) as He. destruct (assoc a (c_enums c)) as [dt|] eqn:Een.
    + eapply takes_literal; [exact Hta|exact He|]. intros E0. destruct (enum_start t pm k c0 c a dt v0 Ht Hc0 Hun Hm Een Hs0) as [?|[-> ->]]; [done|].
      by destruct (Hcph id Hk).
    + destruct Hd as (v' & Hd & Hct & Hfa). rewrite Hs0 in Hct. injection Hct as <-. intros dflt Hdf. rewrite Hd in Hdf. injection Hdf as <-.
      eapply takes_fits; [exact Hpf|exact Hta|exact He|]. destruct v0; try done; [constructor|constructor| |].
      * apply str_eqb_eq in Hfa as ->. destruct (proj2 Hpf _ _ (proj1 Hpf)) as (? & ? & ?). by constructor.
      * apply str_eqb_eq in Hfa as ->. by constructor.
  - intros id o ck c p x Hin Hck Hm Hpp Hnm Hx. destruct (Hno _ _ _ _ _ _ Hin Hck Hm Hpp Hnm Hx) as [i Hi']. exists i. split; [by apply Hid|]. split.
    + destruct (Hwr _ _ Hi') as (o' & k & _ & Hk & _). by eapply Hcid.
    + intros v Hv. rewrite (Has _ _ Hi') in Hv. congruence.
Qed.
Print Assumptions C113_portable.
(** Such a graph is written, read back as a copy and written as the same text,
    any number of times. *)
Lemma closed_trips t pm t14 t15 pf fint enc g d h w : (t, pm) ∈ tables → Portable t pm pf h d → no_way_out t h d → enc_ok enc →
  repr_law pf → writes_to t fint d enc h = (inl tt, h, w) →
  let back src hr := cimread (S (S g)) pf cim14_uri t14 t15 src (Some (t, pm)) (Some cim15_uri) None hr in
  (∃ src, parses_to (w_out w) src) ∧
  (∀ src hr, parses_to (w_out w) src → Sound t hr →
    ∃ d2 h2, back src hr = (None, d2, h2) ∧ Copies t h d h2 d2 ∧ writes_to t fint d2 enc h2 = (inl tt, h2, w)) ∧
  ∀ c, rtc (trip (PropAgain.text_to t fint enc) back (Sound t)) (h, d) c → PropAgain.text_to t fint enc c.2 c.1 = (inl tt, c.1, w_out w).
Proof.
  intros Ht HP Hno He Hpf Hw back. split_and!.
  - destruct (PropRound.C54_round_trip t pm t14 t15 pf fint enc h d h w heap_empty g Ht HP (Sound_empty t) He Hw) as (src & _ & _ & Hp & _). eauto.
  - intros src hr Hp Hs. destruct (back src hr) as [[x d2] h2] eqn:E.
    destruct (PropAgain.trip_copies t pm Ht t14 t15 pf fint enc He g h d h w src hr x d2 h2 HP Hs Hw Hp E) as (-> & _ & HC & _).
    exists d2, h2. split_and!; [done..|]. exact (PropAgain.second_text t pm Ht t14 t15 pf fint enc He g h d h w src hr None d2 h2 HP Hs Hw Hp E Hno).
  - intros c Hc. apply (PropAgain.trips_text t pm Ht t14 t15 pf fint enc He g (h, d) c); [apply Hpf|done|done| |done].
    cbn [fst snd]. apply PropAgain.text_writes. eauto.
Qed.
Theorem C113_again t pm t14 t15 base rdf f g pf err root evs h d' h' fint enc : (t, pm) ∈ tables →
  Sound t h → foreign_root base evs →
  compatible_doc base rdf t pm evs [] h → coherent base rdf t pm evs [] h → attributes_plain base rdf t pm evs [] →
  instantiable base rdf pm evs → (∀ id k, declared_class base rdf pm evs id = Some k → only_ends t k) →
  clean_doc base rdf t pm evs → repr_law pf → enc_ok enc →
  reads base rdf t pm (S (S f)) pf err root evs [] h = (None, d', h') →
  let back src hr := cimread (S (S g)) pf cim14_uri t14 t15 src (Some (t, pm)) (Some cim15_uri) None hr in
  ∃ w, writes_to t fint d' enc h' = (inl tt, h', w) ∧ (∃ src, parses_to (w_out w) src) ∧
    (∀ src hr, parses_to (w_out w) src → Sound t hr →
      ∃ d2 h2, back src hr = (None, d2, h2) ∧ Copies t h' d' h2 d2 ∧ writes_to t fint d2 enc h2 = (inl tt, h2, w)) ∧
    ∀ c, rtc (trip (PropAgain.text_to t fint enc) back (Sound t)) (h', d') c → PropAgain.text_to t fint enc c.2 c.1 = (inl tt, c.1, w_out w).
Proof.
  intros Ht Hs Hf Hc Hco Hp Hi Hex Hcd Hpf He Hr back.
  destruct (C111_read t pm base rdf f pf err root evs h d' h' fint enc Ht Hs Hf Hc Hco Hp Hi Hex Hr) as [w Hw].
  destruct (C113_portable t pm base rdf f pf err root evs h d' h' Ht Hs Hf Hc Hco Hp Hi Hex Hcd Hpf Hr) as [HP Hno].
  exists w. split; [done|]. by apply (closed_trips t pm).
Qed.
Print Assumptions C113_again.
(** In the fourteen profiles nothing raises from the beginning. *)
Theorem C113_profiles t pm t14 t15 base rdf f g pf root evs h fint enc : (t, pm) ∈ profiles → Sound t h → foreign_root base evs →
  compatible_doc base rdf t pm evs [] h → coherent base rdf t pm evs [] h → attributes_plain base rdf t pm evs [] →
  refers_to_ends base rdf t pm evs [] h → self_contained base rdf pm evs [] → instantiable base rdf pm evs →
  (∀ id k a, declared_class base rdf pm evs id = Some k → plain_attr t k a → about base rdf pm evs [] id a ≠ [] →
    ∃ v0 v, starts t k id a v0 ∧ takes_all rdf pf v0 (about base rdf pm evs [] id a) v) →
  clean_doc base rdf t pm evs → repr_law pf → enc_ok enc →
  ∃ d' h' w, reads base rdf t pm (S (S f)) pf false root evs [] h = (None, d', h') ∧ writes_to t fint d' enc h' = (inl tt, h', w) ∧
    (∃ src, parses_to (w_out w) src) ∧
    ∀ src hr, parses_to (w_out w) src → Sound t hr →
      ∃ d2 h2, cimread (S (S g)) pf cim14_uri t14 t15 src (Some (t, pm)) (Some cim15_uri) None hr = (None, d2, h2) ∧
        Copies t h' d' h2 d2 ∧ writes_to t fint d2 enc h2 = (inl tt, h2, w).
Proof.
  intros Hpr Hs Hf Hc Hco Hp He Hsc Hi Hall Hcd Hpf Henc. assert ((t, pm) ∈ tables) as Ht by (unfold tables; by do 2 right).
  destruct (C111_profiles t pm base rdf f pf root evs h fint enc Hpr Hs Hf Hc Hco Hp He Hsc Hi Hall) as (d' & h' & w & Hr & Hw).
  destruct (C113_portable t pm base rdf f pf false root evs h d' h' Ht Hs Hf Hc Hco Hp Hi) as [HP Hno]; [|done..|].
  { intros id k Hk. destruct (declared_tag _ _ _ _ _ _ Hk) as [tag Htag]. exact (C94_profiles _ _ _ _ Hpr Htag). }
  destruct (closed_trips t pm t14 t15 pf fint enc g d' h' w Ht HP Hno Henc Hpf Hw) as (H1 & H2 & _).
  exists d', h', w. split_and!; done.
Qed.
Print Assumptions C113_profiles.

(** Checks for the examples. *)
Definition clean_b (base rdf : pystr) (t : schema) (pm : list (name * name)) (evs : list event) : bool :=
  forallb (λ x, forallb attr_char x.1 && bool_decide (about base rdf pm evs [] x.1 (u "UUID") = []) &&
    forallb (λ c, forallb (λ a, forallb (λ e,
      match assoc a (c_enums c) with
      | Some _ => match resource rdf e with Some r => forallb attr_char r | None => false end
      | None => match resource rdf e with Some _ => false | None => match e_text e with Some s => forallb data_char s | None => true end end
      end) (about base rdf pm evs [] x.1 a)) (c_attrs c)) (mro t x.2) &&
    (negb (str_eqb x.2 phase_cls) || match about base rdf pm evs [] x.1 n_phase with [] => false | _ => true end)) (declared base rdf pm evs).
Lemma clean_b_ok base rdf t pm evs : clean_b base rdf t pm evs = true → clean_doc base rdf t pm evs.
Proof.
  intros H. unfold clean_b in H.
  assert (∀ id k, declared_class base rdf pm evs id = Some k → (id, k) ∈ declared base rdf pm evs) as Hin by (intros; by apply declared_in).
  split.
  - intros id k Hk%Hin. apply (all_rows_ok _ _ _ H) in Hk. cbn beta iota delta [fst snd] in Hk. by apply andb_true_iff in Hk as [[[? _]%andb_true_iff _]%andb_true_iff _].
  - intros id k Hk%Hin. apply (all_rows_ok _ _ _ H) in Hk. cbn beta iota delta [fst snd] in Hk. by apply andb_true_iff in Hk as [[[_ ?%bool_decide_eq_true]%andb_true_iff _]%andb_true_iff _].
  - intros id k c a e Hk%Hin Hc Ha He. apply (all_rows_ok _ _ _ H) in Hk. cbn beta iota delta [fst snd] in Hk. apply andb_true_iff in Hk as [[_ Hk]%andb_true_iff _].
    apply (all_rows_ok _ _ _ Hk) in Hc. apply (all_rows_ok _ _ _ Hc) in Ha. apply (all_rows_ok _ _ _ Ha) in He.
    destruct (assoc a (c_enums c)); destruct (resource rdf e); try done; [by eexists|]. split; [done|]. intros s Es. by rewrite Es in He.
  - intros id Hk%Hin. apply (all_rows_ok _ _ _ H) in Hk. cbn beta iota delta [fst snd] in Hk. apply andb_true_iff in Hk as [_ Hk].
    rewrite str_eqb_refl in Hk. cbn [negb orb] in Hk. by destruct (about base rdf pm evs [] id n_phase).
Qed.
Lemma pf_demo_law : repr_law pf_demo.
Proof.
  split; [compute_now|]. intros s r. unfold pf_demo. destruct (forallb _ s) eqn:E; [|done]. cbn [andb]. destruct (bool_decide (s = [])) eqn:En; [done|].
  cbn [negb]. intros [= <-]. rewrite E, En. split_and!; [by apply bool_decide_eq_false in En| |done].
  rewrite forallb_forall in E. apply forallb_forall. intros c Hc. specialize (E c Hc). unfold data_char, xml_char. unfold is_digit in E.
  apply orb_true_iff in E as [E|E].
  - apply andb_true_iff in E as [E1%N.leb_le E2%N.leb_le]. repeat first [rewrite (proj2 (N.eqb_neq _ _)) by lia | rewrite (proj2 (N.leb_le _ _)) by lia]. done.
  - apply N.eqb_eq in E as ->. done.
Qed.
(** The document of C87, which is read by the topology profile. *)
Example C113_example : clean_doc Bt R topo topo_map tied_doc ∧ repr_law pf_demo ∧ enc_ok (u "utf-8") ∧
  (∀ id k, declared_class Bt R topo_map tied_doc id = Some k → only_ends topo k) ∧ fst (fst tied_r) = None.
Proof.
  split; [apply clean_b_ok; compute_now|]. split; [exact pf_demo_law|]. split; [right; by left|]. split; [|compute_now].
  intros id k Hk. destruct (declared_tag _ _ _ _ _ _ Hk) as [tag Htag]. exact (C94_profiles _ _ _ _ topo_profile Htag).
Qed.
(** A phase of a line segment whose phase is not stated: it is None after the
    first read and the string None after the second. *)
Definition B15 : pystr := u "{" ++ cim15_uri ++ u "#}".
Definition phase_evs : list event := flat B15 [obj "ACLineSegmentPhase" "p1" []] ++ [EEnd root].
Notation phase_r := (reads B15 R cim15 cim15_map 20 pf_demo false root phase_evs [] heap_empty).
Notation phase_w := (snd (writes_to cim15 fint_demo (snd (fst phase_r)) (u "utf-8") (snd phase_r))).
Notation phase_src := (Source (match parse_ns (w_out phase_w) with Some x => xevents true x | None => [] end) false).
Notation phase_r2 := (cimread 20 pf_demo cim14_uri (cim14, cim14_map) (cim15, cim15_map) phase_src None None None heap_empty).
Theorem C113_phase_refuted : ∃ evs d h w src d2 h2 o o2, compatible_doc B15 R cim15 cim15_map evs [] heap_empty ∧
  reads B15 R cim15 cim15_map 20 pf_demo false root evs [] heap_empty = (None, d, h) ∧
  writes_to cim15 fint_demo d (u "utf-8") h = (inl tt, h, w) ∧ parses_to (w_out w) src ∧
  cimread 20 pf_demo cim14_uri (cim14, cim14_map) (cim15, cim15_map) src None None None heap_empty = (None, d2, h2) ∧
  assoc (u "p1") d = Some (VRef o) ∧ assoc (u "p1") d2 = Some (VRef o2) ∧
  sees cim15 h o n_phase VNone ∧ sees cim15 h2 o2 n_phase (VStr (u "None")).
Proof.
  exists phase_evs, (snd (fst phase_r)), (snd phase_r), phase_w, phase_src, (snd (fst phase_r2)), (snd phase_r2), 0, 0.
  split; [apply compatible_doc_b_ok; compute_now|].
  split; [apply PropRound.triple_eq; [compute_now|reflexivity]|].
  split; [apply returns_keeps; compute_now|].
  split; [apply (PropRound.parsed_ok _ _ (match parse_ns (w_out phase_w) with Some x => x | None => XText [] end)); compute_now|].
  split; [apply PropRound.triple_eq; [compute_now|reflexivity]|].
  split; [compute_now|]. split; [compute_now|]. split; apply RoundDemo.see_ok; compute_now.
Qed.
Print Assumptions C113_phase_refuted.
