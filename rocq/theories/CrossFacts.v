(** Reading an export with classes that extend those it was written with. *)
From Coq Require Import String ZArith Lia.
From stdpp Require Import prelude gmap.
From Verif Require Import PyStr PyHeap Schema Assoc AssocSpec HeapFacts LinksFacts AssocFacts CtorFacts HistorySpec Names
  TabCIM14 TabCIM15 TabProfiles Tables TableSpec TableFacts BlankFacts Reader ReaderSpec ReaderFacts CreateFacts StatementFacts ReadSound ReadStepFacts ReadDocFacts.
From Verif Require Import XmlSpec WriteSpec WriteFacts RoundSpec RoundTables RoundDocFacts RoundFacts RoundMain DocSpec DocFacts HistoryFacts ReaderTabs RefFacts MemberSpec ExportDocFacts.
From Verif Require Import FilesSpec CrossSpec AgainFacts PropReader PropDoc ReadDemo.

Section main.
Context (t : schema) (pm : list (name * name)) (Ht : (t, pm) ∈ tables) (pf : pystr → option pystr) (fint : pystr → option Z).
Context (h : heap) (d : dict) (HP : Portable t pm pf h d) (cim rdf : pystr) (es : list entry) (Hes : Writes_all t fint cim h d es).
Notation base := (u "{" ++ cim ++ u "}").
Context (Hcim : ∃ c r, cim = c :: r ∧ c ≠ 35%N) (Hroot : in_base base (root_elem rdf) = false).
Notation evs := (flat base (map (item_of rdf) es) ++ [EEnd (root_elem rdf)]).
Context (T : schema) (tm : list (name * name)) (HT : (T, tm) ∈ tables) (Hem : embeds t pm T tm) (hr : heap).
Notation act p := (pel_elem base (pel_of rdf p)).
Notation CL := (class_in base rdf tm evs [] hr).
Notation cl := (class_in base rdf pm evs [] heap_empty).
Notation sts := (flat_map (λ e, map (λ p, (en_id e, act p)) (en_props e)) es).

Lemma cross_known e : e ∈ es → ∃ c K, assoc (en_id e) d = Some (VRef c.1) ∧ cls_of h c.1 = Some (c_key c.2) ∧ find_cls t (c_key c.2) = Some c.2 ∧
  en_class e = c_name c.2 ∧ assoc (c_name c.2) tm = Some K ∧ K ∉ unconstructible ∧ extends t (c_key c.2) T K.
Proof using HP Hes Hem.
  intros He. destruct (written_entry t pm pf fint h d HP cim es Hes e He) as (o & c & Hin & _ & Hc & Hf & Hn & Ha & Hu).
  destruct (Hem _ _ Ha Hu) as (K & HK & HuK & Hex). by exists (o, c), K.
Qed.
Lemma cross_declared : declared base rdf tm evs = map (λ e, (en_id e, default [] (assoc (en_class e) tm))) es.
Proof using HP Hes Hroot Hem.
  rewrite declared_flat, (declared_root _ _ _ _ Hroot), app_nil_r. apply declared_known. intros e He.
  destruct (cross_known e He) as (c & K & _ & _ & _ & -> & -> & _). done.
Qed.
Lemma cross_class id K : declared_class base rdf tm evs id = Some K ↔
  ∃ o c, assoc id d = Some (VRef o) ∧ cls_of h o = Some (c_key c) ∧ find_cls t (c_key c) = Some c ∧ assoc (c_name c) tm = Some K.
Proof using HP Hes Hroot Hem.
  unfold declared_class. rewrite cross_declared. split.
  - intros Hin%assoc_in. apply elem_of_reverse, elem_of_list_fmap in Hin as (e & [= -> ->] & He).
    destruct (cross_known e He) as ([o c] & K & Hin & Hc & Hf & Hn & Ha & _). exists o, c. rewrite Hn, Ha. done.
  - intros (o & c & Hin & Hc & Hf & Ha). destruct (entry_written t pm pf fint h d HP cim es Hes id o Hin) as (e & He & Hw & Hid).
    destruct (cross_known e He) as ([o2 c2] & K2 & Hin2 & Hc2 & Hf2 & Hn & Ha2 & _). cbn [fst snd] in *. rewrite Hid, Hin in Hin2. injection Hin2 as <-.
    rewrite Hc in Hc2. injection Hc2 as Hk. rewrite <- Hk, Hf in Hf2. injection Hf2 as <-. rewrite Ha in Ha2. injection Ha2 as <-.
    apply assoc_NoDup; [|apply elem_of_reverse, elem_of_list_fmap; exists e; by rewrite Hid, Hn, Ha].
    change (NoDup (fst <$> reverse (map (λ e, (en_id e, default [] (assoc (en_class e) tm))) es))). rewrite reverse_Permutation.
    assert (fst <$> map (λ e, (en_id e, default [] (assoc (en_class e) tm))) es = map fst d) as ->; [|apply HP].
    change (fst <$> map (λ e, (en_id e, default [] (assoc (en_class e) tm))) es) with (map fst (map (λ e, (en_id e, default [] (assoc (en_class e) tm))) es)).
    rewrite map_map. cbn [fst]. apply (entry_ids t pm pf fint h d HP cim es Hes).
Qed.
Lemma cross_in id K : CL id = Some K ↔
  ∃ o c, assoc id d = Some (VRef o) ∧ cls_of h o = Some (c_key c) ∧ find_cls t (c_key c) = Some c ∧ assoc (c_name c) tm = Some K.
Proof using HP Hes Hroot Hem. unfold class_in. rewrite <- cross_class. destruct (declared_class base rdf tm evs id); done. Qed.
(** The class an object is written with and the class it is read with. *)
Lemma cross_both id o k : assoc id d = Some (VRef o) → cls_of h o = Some k →
  ∃ K, declared_class base rdf tm evs id = Some K ∧ CL id = Some K ∧ cl id = Some k ∧ K ∉ unconstructible ∧ extends t k T K ∧
    ∃ c, k = c_key c ∧ find_cls t k = Some c ∧ assoc (c_name c) tm = Some K.
Proof using HP Hes Hroot Hem.
  intros Ho Hk. destruct (dict_obj _ _ _ _ _ HP _ _ Ho) as (? & c & [= <-] & _ & Hc & Hf & Hn & Hu). rewrite Hk in Hc. injection Hc as ->.
  destruct (Hem _ _ Hn Hu) as (K & HK & HuK & Hex). exists K. split_and!; try done.
  - apply cross_class. by exists o, c.
  - apply cross_in. by exists o, c.
  - apply (doc_class_in t pm pf fint h d HP cim rdf es Hes Hroot). eauto.
  - by exists c.
Qed.
Lemma cross_back id K : CL id = Some K → ∃ o k, assoc id d = Some (VRef o) ∧ cls_of h o = Some k ∧ cl id = Some k ∧ K ∉ unconstructible ∧ extends t k T K.
Proof using HP Hes Hroot Hem.
  intros H. pose proof H as (o & c & Ho & Hc & _)%cross_in. destruct (cross_both _ _ _ Ho Hc) as (K' & _ & HK & Hk & Hu & Hex & _).
  rewrite H in HK. injection HK as <-. by exists o, (c_key c).
Qed.
Lemma cross_statements : doc_statements base rdf tm evs [] = sts.
Proof using HP Hes Hroot Hem.
  apply statements_doc; [done|]. intros e He. destruct (cross_known e He) as ([o c] & K & Hin & Hc & Hf & _ & Ha & _).
  assert (declared_class base rdf tm evs (en_id e) = Some K) as HK by (apply cross_class; by exists o, c). unfold known_id. by rewrite HK.
Qed.
Lemma cross_comp : statements base rdf (λ id, match CL id with Some _ => true | None => false end) None evs = sts.
Proof using HP Hes Hroot Hem.
  apply statements_doc; [done|]. intros e He. destruct (cross_known e He) as ([o c] & K & Hin & Hc & _).
  destruct (cross_both _ _ _ Hin Hc) as (K' & _ & HK & _). by rewrite HK.
Qed.
(** Names of statements. *)
Lemma statement_name id el : (id, el) ∈ sts → ∃ o ck c a, assoc id d = Some (VRef o) ∧ cls_of h o = Some ck ∧ c ∈ mro t ck ∧
  after_last_dot (local base el) = a ∧
  (plain_attr t ck a ∧ a ≠ u "UUID" ∧ (∀ y, resource rdf el = Some y → has_prefix (u "#") y = false) ∨
   a ∈ c_refs c ∧ a ∉ c_many c ∧ ∃ y, resource rdf el = Some (35%N :: y)).
Proof using HP Hes Ht Hcim Hroot.
  intros Hin. destruct (statement_does t pm Ht pf fint h d HP cim rdf es Hes _ _ Hin) as (e & o & c0 & p & k & He & Hid & Ho & Hck & Hrc & Hp & -> & Hdo).
  destruct Hdo as [ck c a' v dv s Hc Hcm Ha' Hne He' Hv Hdv Hneq Hs|ck c a' v dt s Hc Hcm Ha' Hne He' Hv Hs|ck c r x iv s Hc Hcm Hr Hm Hx Hi Hs];
    rewrite Hck in Hc; injection Hc as <-.
  - exists o, (c_key c0), c, a'. split_and!; try done; [by eapply (act_local t pm Ht cim rdf c a'); [by eapply mro_sub|by left|]|]. left.
    split; [by destruct (round_attr_ok _ _ Hrc c a' Hcm Ha' Hne)|]. split; [done|]. intros y. by rewrite act_resource.
  - exists o, (c_key c0), c, a'. split_and!; try done; [by eapply (act_local t pm Ht cim rdf c a'); [by eapply mro_sub|by left|]|]. left.
    split; [by destruct (round_attr_ok _ _ Hrc c a' Hcm Ha' Hne)|]. split; [done|]. intros y. rewrite act_resource. intros [= <-].
    destruct Hcim as (c2 & r2 & -> & H35). unfold has_prefix. apply str_eqb_neq. cbn [app]. change (u "#") with [35%N]. cbn [length take]. congruence.
  - exists o, (c_key c0), c, r. split_and!; try done; [by eapply (act_local t pm Ht cim rdf c r); [by eapply mro_sub|by right|]|]. right. split_and!; [done..|].
    exists s. by rewrite act_resource.
Qed.
Lemma ex_ref_kind ck K c a : extends t ck T K → c ∈ mro t ck → a ∈ c_refs c → a ∉ c_many c →
  lookup_prop T K a = lookup_prop t ck a ∧ (lookup_prop t ck a = None → ∀ C, C ∈ mro T K → a ∉ c_attrs C).
Proof using Type.
  intros Hex Hc Hr Hm. destruct (lookup_prop t ck a) as [kk|] eqn:E; [by rewrite (ex_prop _ _ _ _ Hex _ _ E)|].
  destruct (ex_ref _ _ _ _ Hex c a Hc Hr Hm E) as [H1 H2]. by rewrite H1.
Qed.
Lemma ex_links ck K tk TK c a : extends t ck T K → extends t tk T TK → c ∈ mro t ck → a ∈ c_refs c → a ∉ c_many c →
  links_to t ck a tk → links_to T K a TK.
Proof using Type.
  intros H1 H2 Hc Hr Hm. destruct (ex_ref_kind ck K c a H1 Hc Hr Hm) as [E Hn]. unfold links_to. rewrite E.
  assert (∀ p q, class_ends t ck p tk q → class_ends T K p TK q) as He.
  { intros p q (Hp & p' & Hq & Ha). split; [by apply (ex_prop _ _ _ _ H1)|]. exists p'. split; [by apply (ex_prop _ _ _ _ H2)|].
    destruct Ha as [->|[c' Ha]]; [by left|right]. exists c'. by apply (ex_prop _ _ _ _ H1). }
  assert (∀ p q, class_ends t tk p ck q → class_ends T TK p K q) as He'.
  { intros p q (Hp & p' & Hq & Ha). split; [by apply (ex_prop _ _ _ _ H2)|]. exists p'. split; [by apply (ex_prop _ _ _ _ H1)|].
    destruct Ha as [->|[c' Ha]]; [by left|right]. exists c'. by apply (ex_prop _ _ _ _ H2). }
  destruct (lookup_prop t ck a) as [[q|q|q|q| |q|p c']|].
  - apply He.
  - intros (p & Hp & Ha). exists p. split; [by apply He'|]. destruct Ha as [->|[c' Ha]]; [by left|right]. exists c'. by apply (ex_prop _ _ _ _ H2).
  - apply (ex_prop _ _ _ _ H2).
  - apply (ex_prop _ _ _ _ H2).
  - done.
  - done.
  - intros (q & Hq). exists q. by apply He.
  - intros [Hk _]. split; [done|by apply Hn].
Qed.
Lemma cross_compatible : compatible_doc base rdf T tm evs [] hr.
Proof using HP Hes Hroot Ht Hcim Hem.
  unfold compatible_doc. cbv zeta. rewrite cross_comp. intros id el Hin.
  destruct (statement_name _ _ Hin) as (o & ck & c & a & Ho & Hck & Hcm & Hn & Hcase).
  destruct (cross_both _ _ _ Ho Hck) as (K & _ & HK & Hcl & Hu & Hex & _). exists K. split; [done|].
  pose proof (doc_compatible t pm Ht pf fint h d HP cim rdf es Hes Hcim Hroot heap_empty) as Hcomp. unfold compatible_doc in Hcomp. cbv zeta in Hcomp.
  rewrite (comp_statements t pm pf fint h d HP cim rdf es Hes Hroot heap_empty) in Hcomp.
  destruct (Hcomp id el Hin) as (ck' & Hck' & Hco). rewrite Hcl in Hck'. injection Hck' as <-.
  intros a' Ha'. pose proof Ha' as (_ & _ & _ & Ha2). rewrite Hn in Ha2. subst a'. specialize (Hco a Ha').
  destruct Hcase as [(Hpl & _ & Hno)|(Hr & Hm & y & Hy)].
  - assert (plain_attr T K a) as HplT by apply (ex_attr _ _ _ _ Hex a Hpl).
    destruct (resource rdf el) as [r|]; [|done]. specialize (Hno _ eq_refl).
    destruct r as [|c1 r]; [done|]. destruct (decide (c1 = 35%N)) as [->|?]; [|by repeat case_match].
    revert Hno. unfold has_prefix. change (u "#") with [35%N]. cbn [length take]. by rewrite str_eqb_refl.
  - rewrite Hy in *. cbv iota in *. intros TK HTK. destruct (cross_back _ _ HTK) as (o2 & tk & Ho2 & Hk2 & Hcl2 & _ & Hex2).
    by apply (ex_links ck K tk TK c a Hex Hex2 Hcm Hr Hm), Hco.
Qed.
(** The same references are stated. *)
Lemma cl_some id : is_Some (CL id) ↔ is_Some (cl id).
Proof using HP Hes Hroot Hem.
  split.
  - intros [K (o & k & _ & _ & H & _)%cross_back]. by exists k.
  - intros [k (o & Ho & Hk)%(doc_class_in t pm pf fint h d HP cim rdf es Hes Hroot)].
    destruct (cross_both _ _ _ Ho Hk) as (K & _ & H & _). by exists K.
Qed.
Lemma cl_both id k K : cl id = Some k → CL id = Some K → extends t k T K.
Proof using HP Hes Hroot Hem.
  intros (o & Ho & Hk)%(doc_class_in t pm pf fint h d HP cim rdf es Hes Hroot) H.
  destruct (cross_both _ _ _ Ho Hk) as (K' & _ & H' & _ & _ & Hex & _). rewrite H in H'. by injection H' as <-.
Qed.
Lemma cross_refers x a y : refers base rdf CL sts x a y ↔ refers base rdf cl sts x a y.
Proof using HP Hes Hroot Hem. unfold refers. setoid_rewrite cl_some. done. Qed.
Lemma refers_kind x a y ck K : refers base rdf cl sts x a y → cl x = Some ck → CL x = Some K → lookup_prop T K a = lookup_prop t ck a.
Proof using HP Hes Hroot Ht Hcim Hem.
  intros (el & Hin & [(_ & _ & _ & Ha) Hres] & _) Hck HK. pose proof (cl_both _ _ _ Hck HK) as Hex.
  destruct (statement_name _ _ Hin) as (o & ck' & c & a' & Ho & Hck' & Hcm & Hn & Hcase). rewrite Ha in Hn. subst a'.
  assert (cl x = Some ck') as H by (apply (doc_class_in t pm pf fint h d HP cim rdf es Hes Hroot); eauto). rewrite Hck in H. injection H as <-.
  destruct Hcase as [(_ & _ & Hno)|(Hr & Hm & _)].
  - specialize (Hno _ Hres). revert Hno. unfold has_prefix. change (u "#") with [35%N]. cbn [length take app]. by rewrite str_eqb_refl.
  - by destruct (ex_ref_kind ck K c a Hex Hcm Hr Hm).
Qed.
Lemma cross_says x p y : says base rdf T CL sts x p y ↔ says base rdf t cl sts x p y.
Proof using HP Hes Hroot Ht Hcim Hem.
  assert (∀ z K, CL z = Some K → ∃ k, cl z = Some k) as Hb by (intros z K HK; apply cl_some; eauto).
  assert (∀ z k, cl z = Some k → ∃ K, CL z = Some K) as Hf by (intros z k HK; apply cl_some; eauto).
  split.
  - destruct 1 as [x p y K q Hr%cross_refers Hx Hl|x a p y K c Hr%cross_refers Hx Hl|x p p' y q K TK Hr%cross_refers Hx Hy Hl Hm|x p y K q Hr%cross_refers Hx Hl|x p y TK q Hr%cross_refers Hy Hl].
    + destruct (Hb _ _ Hx) as [k Hk]. rewrite (refers_kind _ _ _ _ _ Hr Hk Hx) in Hl. by eapply says_single.
    + destruct (Hb _ _ Hx) as [k Hk]. rewrite (refers_kind _ _ _ _ _ Hr Hk Hx) in Hl. by eapply says_alias.
    + exfalso. destruct (Hb _ _ Hy) as [k Hk]. rewrite (refers_kind _ _ _ _ _ Hr Hk Hy) in Hl.
      destruct (refers_sees t pm Ht pf fint h d HP cim rdf es Hes Hcim Hroot heap_empty _ _ _ _ Hr Hk) as (? & ? & _ & _ & _ & _ & H). by rewrite Hl in H.
    + destruct (Hb _ _ Hx) as [k Hk]. rewrite (refers_kind _ _ _ _ _ Hr Hk Hx) in Hl. by eapply says_pair.
    + destruct (Hb _ _ Hy) as [k Hk]. rewrite (refers_kind _ _ _ _ _ Hr Hk Hy) in Hl. by eapply says_partner.
  - destruct 1 as [x p y k q Hr Hx Hl|x a p y k c Hr Hx Hl|x p p' y q k tk Hr Hx Hy Hl Hm|x p y k q Hr Hx Hl|x p y tk q Hr Hy Hl].
    + destruct (Hf _ _ Hx) as [K HK]. rewrite <- (refers_kind _ _ _ _ _ Hr Hx HK) in Hl. apply cross_refers in Hr. by eapply says_single.
    + destruct (Hf _ _ Hx) as [K HK]. rewrite <- (refers_kind _ _ _ _ _ Hr Hx HK) in Hl. apply cross_refers in Hr. by eapply says_alias.
    + exfalso. destruct (refers_sees t pm Ht pf fint h d HP cim rdf es Hes Hcim Hroot heap_empty _ _ _ _ Hr Hy) as (? & ? & _ & _ & _ & _ & H). by rewrite Hl in H.
    + destruct (Hf _ _ Hx) as [K HK]. rewrite <- (refers_kind _ _ _ _ _ Hr Hx HK) in Hl. apply cross_refers in Hr. by eapply says_pair.
    + destruct (Hf _ _ Hy) as [K HK]. rewrite <- (refers_kind _ _ _ _ _ Hr Hy HK) in Hl. apply cross_refers in Hr. by eapply says_partner.
Qed.
Lemma cross_no_many x p y : ¬ says_many base rdf T CL sts x p y.
Proof using HP Hes Hroot Ht Hcim Hem.
  assert (∀ z K, CL z = Some K → ∃ k, cl z = Some k) as Hb by (intros z K HK; apply cl_some; eauto).
  destruct 1 as [x p y K q Hr%cross_refers Hx Hl|x p y K q Hr%cross_refers Hx Hl]; destruct (Hb _ _ Hx) as [k Hk]; rewrite (refers_kind _ _ _ _ _ Hr Hk Hx) in Hl;
    destruct (refers_sees t pm Ht pf fint h d HP cim rdf es Hes Hcim Hroot heap_empty _ _ _ _ Hr Hk) as (? & ? & _ & _ & _ & _ & H); by rewrite Hl in H.
Qed.
Lemma cross_coherent : coherent base rdf T tm evs [] hr.
Proof using HP Hes Hroot Ht Hcim Hem.
  pose proof (doc_coherent t pm Ht pf fint h d HP cim rdf es Hes Hcim Hroot heap_empty) as [H1 H2].
  unfold doc_says in H2. rewrite (all_statements t pm pf fint h d HP cim rdf es Hes Hroot) in H1, H2. split.
  - rewrite cross_statements. intros x p y y' Hy%cross_says Hy'%cross_says. by eapply H1.
  - intros x p y H. unfold doc_says in H. rewrite cross_statements in H. apply cross_says, H2 in H as [k (o & Ho & Hk)%(doc_class t pm pf fint h d HP cim rdf es Hes Hroot)].
    destruct (cross_both _ _ _ Ho Hk) as (K & HK & _). by exists K.
Qed.
Lemma cross_self_contained : self_contained base rdf tm evs [].
Proof using HP Hes Hroot Ht Hcim Hem hr.
  intros id e. rewrite cross_statements. intros (o & ck & c & a & Ho & Hck & _)%statement_name.
  destruct (cross_both _ _ _ Ho Hck) as (K & HK & _). by exists K.
Qed.
Lemma cross_instantiable : instantiable base rdf tm evs.
Proof using HP Hes Hroot Hem.
  intros id k. rewrite cross_declared. intros (e & [= -> ->] & He)%elem_of_list_fmap.
  destruct (cross_known e He) as ([o c] & K & Hin & Hc & Hf & -> & -> & Hu & _). done.
Qed.
Lemma cross_attributes_plain : attributes_plain base rdf T tm evs [].
Proof using HP Hes Hroot Ht Hcim Hem hr.
  intros id K a e r Hd (Hpub & Hl & c1 & Hc1 & Ha1) Hin Hr. unfold about in Hin. rewrite cross_statements in Hin.
  apply elem_of_list_omap in Hin as ([i e'] & Hin & E). cbn [fst snd] in E. case_decide as Hdec; [|done]. destruct Hdec as [-> Ha]. injection E as ->.
  destruct (statement_name _ _ Hin) as (o & ck & c & a' & Ho & Hck & Hcm & Hn & Hcase). rewrite Ha in Hn. subst a'.
  destruct Hcase as [(_ & _ & Hno)|(Hrf & Hm & _)]; [by apply Hno|].
  destruct (cross_both _ _ _ Ho Hck) as (K' & HK & _ & _ & _ & Hex & _). rewrite Hd in HK. injection HK as <-.
  destruct (ex_ref_kind ck K c a Hex Hcm Hrf Hm) as [El Hna]. rewrite Hl in El. by destruct (Hna (eq_sym El) c1).
Qed.
Lemma about_same id a : about base rdf tm evs [] id a = about base rdf pm evs [] id a.
Proof using HP Hes Hroot Hem.
  unfold about. by rewrite cross_statements, (all_statements t pm pf fint h d HP cim rdf es Hes Hroot).
Qed.
Lemma cross_to_ends : only_ends t h d → refers_to_ends base rdf T tm evs [] hr.
Proof using HP Hes Hroot Ht Hcim Hem.
  intros Hends x a y K H HK. rewrite cross_statements in H. apply cross_refers in H. destruct (cross_back _ _ HK) as (o & ck & Ho & Hck & Hcl & _ & Hex).
  pose proof H as (el & Hin & [(_ & _ & _ & Ha) Hres] & _).
  destruct (statement_does t pm Ht pf fint h d HP cim rdf es Hes _ _ Hin) as (e & o' & c0 & p & k & He & Hid & Ho' & Hck' & Hrc & Hp & -> & Hdo).
  rewrite Ho in Ho'. injection Ho' as <-. rewrite Hck in Hck'. injection Hck' as ->. rewrite act_resource in Hres.
  destruct Hdo as [ck c a' v dv s Hc Hcm Ha' Hne He' Hv Hdv Hneq Hs|ck c a' v dt s Hc Hcm Ha' Hne He' Hv Hs|ck c r z iv s Hc Hcm Hr Hm Hz Hi Hs];
    rewrite Hck in Hc; injection Hc as <-.
  - done.
  - exfalso. destruct Hcim as (c1 & r1 & Ecim & H35). rewrite Ecim in Hres. cbn [app] in Hres. change (u "#" ++ y) with (35%N :: y) in Hres.
    injection Hres as E1 _. by apply H35.
  - rewrite (act_local t pm Ht cim rdf c r _ (mro_sub _ _ _ Hcm) (or_intror Hr)) in Ha by reflexivity. subst r.
    destruct (round_ref_ok _ _ Hrc c a Hcm Hr Hm) as [Hpub _]. split; [done|]. rewrite (refers_kind _ _ _ _ _ H Hcl HK).
    destruct (refers_sees t pm Ht pf fint h d HP cim rdf es Hes Hcim Hroot heap_empty _ _ _ _ H Hcl) as (o1 & o2 & Ho1 & _ & Ho2 & Hv & _).
    rewrite Ho in Ho1. injection Ho1 as <-.
    assert (z = o2) as ->.
    { change (u "#" ++ s) with (35%N :: s) in Hres. change (u "#" ++ y) with (35%N :: y) in Hres. injection Hres as ->.
      destruct (po_refs _ _ _ _ _ HP x o _ c a z (assoc_in _ _ _ Ho) Hck Hcm Hr Hm Hz) as (i & Hi' & _ & Hout).
      pose proof (sees_det _ _ _ _ _ _ Hi Hi') as ->. assert (i = y) as -> by (by inversion Hs). specialize (Hout _ Ho2). by injection Hout as <-. }
    pose proof (Hends o (c_key c0) c a o2) as He2. specialize (He2 (ex_intro _ x (assoc_in _ _ _ Ho)) Hck Hcm Hr Hm Hz (ex_intro _ y (assoc_in _ _ _ Ho2))).
    by destruct (lookup_prop t (c_key c0) a) as [[]|].
Qed.
Lemma uuid_plain id o k : assoc id d = Some (VRef o) → cls_of h o = Some k → plain_attr t k (u "UUID").
Proof using HP Ht.
  intros Ho Hk. destruct (dict_obj _ _ _ _ _ HP _ _ Ho) as (? & c & [= <-] & _ & Hc & Hf & Hn & Hu). rewrite Hk in Hc. injection Hc as ->.
  split_and!; [done|by eapply (blank_uuid t pm (c_name c) (c_key c))|by eapply (uuid_ok t pm (c_key c) c)].
Qed.
(** No statement is about an identifier or an attribute of the reader only. *)
Lemma about_plain id o k K a : assoc id d = Some (VRef o) → cls_of h o = Some k → CL id = Some K → plain_attr T K a →
  about base rdf pm evs [] id a ≠ [] → plain_attr t k a ∧ a ≠ u "UUID".
Proof using HP Hes Hroot Ht Hcim Hem.
  intros Ho Hk HK HplT Hne. destruct (about base rdf pm evs [] id a) as [|e l] eqn:E; [done|clear Hne].
  assert (e ∈ about base rdf pm evs [] id a) as Hin by (rewrite E; left). unfold about in Hin.
  rewrite (all_statements t pm pf fint h d HP cim rdf es Hes Hroot) in Hin.
  apply elem_of_list_omap in Hin as ([i e'] & Hin & E'). cbn [fst snd] in E'. case_decide as Hdec; [|done]. destruct Hdec as [-> Ha]. injection E' as ->.
  destruct (statement_name _ _ Hin) as (o' & ck & c & a' & Ho' & Hck & Hcm & Hn & Hcase). rewrite Ha in Hn. subst a'.
  rewrite Ho in Ho'. injection Ho' as <-. rewrite Hk in Hck. injection Hck as <-.
  destruct (cross_both _ _ _ Ho Hk) as (K' & _ & HK' & _ & _ & Hex & _). rewrite HK in HK'. injection HK' as <-.
  destruct Hcase as [(Hpl & Hne & _)|(Hr & Hm & _)]; [done|].
  destruct HplT as (_ & Hl & c1 & Hc1 & Ha1). destruct (ex_ref_kind k K c a Hex Hcm Hr Hm) as [El Hno]. rewrite Hl in El. by destruct (Hno (eq_sym El) c1).
Qed.
Lemma about_none id o k K a : assoc id d = Some (VRef o) → cls_of h o = Some k → CL id = Some K → plain_attr T K a →
  (plain_attr t k a → a = u "UUID") → about base rdf pm evs [] id a = [].
Proof using HP Hes Hroot Ht Hcim Hem.
  intros Ho Hk HK HplT Hna. destruct (decide (about base rdf pm evs [] id a = [])) as [?|Hne]; [done|].
  destruct (about_plain _ _ _ _ _ Ho Hk HK HplT Hne) as [Hpl Hu]. by destruct Hu; apply Hna.
Qed.

Lemma cross_read f : Sound T hr → only_ends t h d → ∃ d' h2,
  reads base rdf T tm (S (S f)) pf false (root_elem rdf) evs [] hr = (None, d', h2) ∧ Moved t h d T tm h2 d' ∧ Sound T h2.
Proof using HP Hes Hroot Ht Hcim Hem HT.
  intros Hsr Hends. pose proof (proj1 (so_consistent _ _ Hsr)) as Hwf.
  destruct (round_reads t pm Ht pf fint h d HP cim rdf es Hes Hcim Hroot heap_empty f (Sound_empty t)) as (d1 & h1 & E1 & HC & _ & _ & _).
  pose proof (doc_foreign cim rdf es Hroot) as Hfor. pose proof (proj1 (so_consistent _ _ (Sound_empty t))) as Hwf0.
  assert (∀ id o k a, assoc id d = Some (VRef o) → cls_of h o = Some k → plain_attr t k a →
    ∃ o1 v0 v, assoc id d1 = Some (VRef o1) ∧ starts t k id a v0 ∧ takes_all rdf pf v0 (about base rdf pm evs [] id a) v ∧ shows t h1 o1 a v) as Hrun.
  { intros id o k a Ho Hk Hpl.
    assert (declared_class base rdf pm evs id = Some k) as Hd by (apply (doc_class t pm pf fint h d HP cim rdf es Hes Hroot); eauto).
    destruct (C87_attribute t pm base rdf _ pf _ _ _ _ _ _ _ id k a Ht Hwf0 (dict_alive_nil _) Hfor E1 Hd Hpl) as (o1 & v0 & v & H); [|by exists o1, v0, v].
    intros e r. by eapply (doc_attributes_plain t pm Ht pf fint h d HP cim rdf es Hes Hcim Hroot). }
  pose proof cross_compatible as Hcomp. pose proof cross_coherent as Hco. pose proof cross_self_contained as Hsc. pose proof cross_attributes_plain as Hap.
  pose proof cross_instantiable as Hi. pose proof (cross_to_ends Hends) as Hte.
  assert (∀ id k K a v, extends t k T K → plain_attr t k a → starts t k id a v → starts T K id a v) as Hst.
  { intros id k K a v Hex Hpl. unfold starts. case_decide; [done|]. by destruct (ex_attr _ _ _ _ Hex a Hpl) as [_ ->]. }
  destruct (proj2 (C90_returns T tm base rdf f pf (root_elem rdf) evs [] hr HT Hsr (dict_alive_nil _) Hfor Hcomp Hte Hsc Hap Hi)) as (d' & h2 & E).
  { intros id K a HK HplT Hne. apply cross_class in HK as (o & c & Ho & Hc & Hf & HK).
    destruct (cross_both _ _ _ Ho Hc) as (K' & _ & HK' & _ & _ & Hex & c' & Hkc & Hf' & Ha'). rewrite Hf in Hf'. injection Hf' as <-. rewrite HK in Ha'. injection Ha' as <-.
    rewrite about_same in *. destruct (about_plain _ _ _ _ _ Ho Hc HK' HplT Hne) as [Hpl _].
    destruct (Hrun _ _ _ _ Ho Hc Hpl) as (o1 & v0 & v & _ & Hs & Ht' & _). exists v0, v. split; [by eapply Hst|done]. }
  exists d', h2. split; [done|].
  assert (Sound T h2) as Hs2. { by eapply (reads_sound T tm HT base rdf f pf); [..|exact E|]. }
  split; [|done].
  (* the objects *)
  assert (∀ id o k, assoc id d = Some (VRef o) → cls_of h o = Some k → ∃ K o' c, declared_class base rdf tm evs id = Some K ∧ CL id = Some K ∧ extends t k T K ∧
    assoc id d' = Some (VRef o') ∧ cls_of hr o' = None ∧ cls_of h2 o' = Some K ∧ k = c_key c ∧ find_cls t k = Some c ∧ assoc (c_name c) tm = Some K) as Hobj.
  { intros id o k Ho Hk. destruct (cross_both _ _ _ Ho Hk) as (K & HK & HCL & _ & _ & Hex & c & Hkc & Hf & Ha).
    destruct (C25_classes T tm base rdf _ pf _ _ _ _ _ _ _ id K HT Hwf Hfor E HK) as (o' & Ho' & Hn & Hc' & _). by exists K, o', c. }
  assert (∀ id o', assoc id d' = Some (VRef o') → ∃ o, assoc id d = Some (VRef o)) as Hkeys.
  { intros id o' Ho'. destruct (C24_keys T tm base rdf _ pf _ _ _ [] hr d' h2 HT Hwf Hfor E) as [_ Hk].
    assert (id ∈ map fst (declared base rdf tm evs)) as Hin. { destruct (proj1 (Hk id)) as [H|H]; [|by apply elem_of_nil in H|done]. apply elem_of_list_fmap. exists (id, VRef o'). split; [done|by apply assoc_in]. }
    rewrite cross_declared, map_map in Hin. cbn [fst] in Hin. change (id ∈ map en_id es) in Hin. apply elem_of_list_fmap in Hin as (e & -> & He).
    destruct (cross_known e He) as ([o c] & K & Hin & _). by exists o. }
  assert (∀ id o', assoc id d' = Some (VRef o') → view h2 o' (Pub (u "UUID")) = Some (OV (VStr id))) as Huuid.
  { intros id o' Ho'. destruct (Hkeys _ _ Ho') as [o Ho]. destruct (dict_obj _ _ _ _ _ HP _ _ Ho) as (? & c & [= <-] & _ & Hc & _).
    destruct (Hobj _ _ _ Ho Hc) as (K & o2 & c2 & HK & HCL & Hex & Ho2 & _ & Hc2 & _). rewrite Ho' in Ho2. injection Ho2 as <-.
    pose proof (uuid_plain _ _ _ Ho Hc) as Hpl. assert (plain_attr T K (u "UUID")) as HplT by apply (ex_attr _ _ _ _ Hex _ Hpl).
    assert (about base rdf tm evs [] id (u "UUID") = []) as Hab.
    { rewrite about_same. by eapply about_none. }
    destruct (C87_attribute T tm base rdf _ pf _ _ _ _ _ _ _ id K (u "UUID") HT Hwf (dict_alive_nil _) Hfor E HK HplT) as (o1 & v0 & v & Ho1 & Hs & Ht' & K2 & HK2 & Hv);
      [intros e r; by eapply Hap|]. rewrite Ho' in Ho1. injection Ho1 as <-. rewrite Hab in Ht'. inversion Ht'; subst v0 v.
    rewrite Hc2 in HK2. injection HK2 as <-. destruct HplT as (_ & Hl & _). rewrite Hl in Hv. by rewrite Hs in Hv. }
  assert (∀ id id' o, assoc id d' = Some (VRef o) → assoc id' d' = Some (VRef o) → id' = id) as Hinj.
  { intros id id' o H1%Huuid H2%Huuid. rewrite H1 in H2. by injection H2. }
  assert (∀ id id' o, assoc id d = Some (VRef o) → assoc id' d = Some (VRef o) → id' = id) as Hinj0.
  { intros id id' o H1 H2. destruct (po_ids _ _ _ _ _ HP _ _ (assoc_in _ _ _ H1)) as (? & [= <-] & Hu & _).
    destruct (po_ids _ _ _ _ _ HP _ _ (assoc_in _ _ _ H2)) as (? & [= <-] & Hu' & _). by pose proof (sees_det _ _ _ _ _ _ Hu Hu') as [= ->]. }
  assert (∀ o o', copy_of d d' o o' → ∃ id k K c, assoc id d = Some (VRef o) ∧ assoc id d' = Some (VRef o') ∧ cls_of h o = Some k ∧
    declared_class base rdf tm evs id = Some K ∧ CL id = Some K ∧ extends t k T K ∧ cls_of hr o' = None ∧ cls_of h2 o' = Some K ∧ k = c_key c ∧ find_cls t k = Some c ∧ assoc (c_name c) tm = Some K ∧
    assoc (c_name c) pm = Some k ∧ k ∉ unconstructible) as Hcopy.
  { intros o o' (id & Ho & Ho'). destruct (dict_obj _ _ _ _ _ HP _ _ Ho) as (? & c & [= <-] & _ & Hc & Hf & Hn & Hu).
    destruct (Hobj _ _ _ Ho Hc) as (K & o2 & c2 & HK & HCL & Hex & Ho2 & Hn2 & Hc2 & Hk2 & Hf2 & Ha2). rewrite Ho' in Ho2. injection Ho2 as <-.
    rewrite Hf in Hf2. injection Hf2 as <-. by exists id, (c_key c), K, c. }
  assert (∀ o q v, cls_of hr o = None → ¬ held hr o q v) as Hheld.
  { intros o q v Hn (ys & Hy & _). unfold view, slot in Hy. unfold cls_of in Hn. by destruct (h_objs hr !! o). }
  assert (∀ x p y, doc_says base rdf T tm evs [] hr x p y ↔ says base rdf t cl sts x p y) as Hsay.
  { intros x p y. unfold doc_says. rewrite cross_statements. apply cross_says. }
  split.
  - destruct (C24_keys T tm base rdf _ pf _ _ _ [] hr d' h2 HT Hwf Hfor E) as [Hk _]. etransitivity; [exact Hk|]. rewrite cross_declared, map_map. cbn [fst map].
    change (λ x, en_id x) with en_id. rewrite (entry_ids t pm pf fint h d HP cim es Hes). rewrite add_keys_NoDup; [done|]. apply HP.
  - intros id o Ho. destruct (dict_obj _ _ _ _ _ HP _ _ Ho) as (? & c & [= <-] & _ & Hc & _).
    destruct (Hobj _ _ _ Ho Hc) as (K & o2 & c2 & _ & _ & _ & Ho2 & _). by exists o2.
  - intros o o' Hco'. destruct (Hcopy _ _ Hco') as (id & k & K & c & _ & _ & Hk & _ & _ & _ & _ & Hc2 & -> & Hf & Ha & _). by exists c, K.
  - intros o o' ck c a v Hco' Hck Hcm Ha Hv. destruct (Hcopy _ _ Hco') as (id & k & K & c0 & Ho & Ho' & Hk & HK & HCL & Hex & _ & Hc2 & Hkc & Hf & _ & Hn & Hu).
    rewrite Hck in Hk. injection Hk as <-.
    assert (plain_attr t ck a) as Hpl.
    { destruct (decide (a = u "UUID")) as [->|Hne]; [by eapply uuid_plain|].
      assert (round_cls (mro t ck) = true) as Hrc by (by eapply (round_ok t pm ck c0)). by destruct (round_attr_ok _ _ Hrc c a Hcm Ha Hne). }
    destruct (Hrun _ _ _ _ Ho Hck Hpl) as (o1 & v0 & w & Ho1 & Hs & Ht' & Hw).
    assert (copy_of d d1 o o1) as Hco1 by (by exists id).
    destruct (cp_attrs _ _ _ _ _ HC _ _ _ _ _ _ Hco1 Hck Hcm Ha Hv) as (v' & (k1 & Hk1 & Hv') & Heq).
    destruct Hw as (k2 & Hk2 & Hw). rewrite Hk1 in Hk2. injection Hk2 as <-.
    assert (cls_of h1 o1 = Some ck) as Hc1 by (by rewrite (cp_class _ _ _ _ _ HC _ _ Hco1)). rewrite Hk1 in Hc1. injection Hc1 as ->.
    pose proof Hpl as (_ & Hl & _). rewrite Hl in Hv', Hw. rewrite Hv' in Hw. injection Hw as <-.
    exists v'. split; [|done]. assert (plain_attr T K a) as HplT by apply (ex_attr _ _ _ _ Hex _ Hpl).
    destruct (C87_attribute T tm base rdf _ pf _ _ _ _ _ _ _ id K a HT Hwf (dict_alive_nil _) Hfor E HK HplT) as (o2 & w0 & w & Ho2 & Hs2' & Ht2 & K2 & HK2 & Hw);
      [intros e r; by eapply Hap|]. rewrite Ho' in Ho2. injection Ho2 as <-. rewrite Hc2 in HK2. injection HK2 as <-.
    pose proof (starts_fun _ _ _ _ _ _ (Hst _ _ _ _ _ Hex Hpl Hs) Hs2') as <-. rewrite about_same in Ht2. pose proof (takes_all_fun _ _ _ _ _ _ Ht' Ht2) as <-.
    exists K. split; [done|]. destruct HplT as (_ & HlT & _). rewrite HlT in Hw |- *. done.
  - intros o o' p k v Hco' Hpk Hkind Hv. destruct (Hcopy _ _ Hco') as (id & ck & K & c0 & Ho & Ho' & Hk & HK & HCL & Hex & _ & Hc2 & Hkc & Hf & _ & Hn & Hu).
    unfold pkind in Hpk. rewrite Hk in Hpk. change (lookup_prop t ck p = Some k) in Hpk. pose proof (ex_prop _ _ _ _ Hex _ _ Hpk) as HpT.
    assert (∀ v', shows T h2 o' p v' → view h2 o' (Priv p) = Some (OV v')) as Hsv.
    { intros v' (K2 & HK2 & H). rewrite Hc2 in HK2. injection HK2 as <-. rewrite HpT in H. by destruct k. }
    assert (∀ y o2, assoc y d = Some (VRef o2) → v = VRef o2 → ∃ o2', copy_of d d' o2 o2' ∧ view h2 o' (Priv p) = Some (OV (VRef o2'))) as Hhit.
    { intros y o2 Hy ->. assert (says base rdf t cl sts id p y) as Hs.
      { eapply (view_says t pm Ht pf fint h d HP cim rdf es Hes Hroot heap_empty id p y o o2 ck k); try done. by destruct k. }
      apply Hsay in Hs. destruct (C88_stated T tm base rdf f pf _ _ _ _ _ _ _ id p y HT Hsr (dict_alive_nil _) Hfor Hcomp Hco E Hs) as (o1 & oy & Ho1 & Hoy & Hsh).
      rewrite Ho' in Ho1. injection Ho1 as <-. exists oy. split; [by exists y|by apply Hsv]. }
    assert ((∀ y o2, assoc y d = Some (VRef o2) → v ≠ VRef o2) → view h2 o' (Priv p) = Some (OV VNone)) as Hmiss.
    { intros Hno. destruct (C88_unstated T tm base rdf f pf _ _ _ _ _ _ _ id K p k HT Hsr (dict_alive_nil _) Hfor Hcomp Hco E HK HpT) as (o1 & Ho1 & Hsh); [by destruct k| |].
      - intros y Hs%Hsay. destruct (says_view t pm Ht pf fint h d HP cim rdf es Hes Hcim Hroot heap_empty _ _ _ Hs) as (o1 & o2 & ck1 & k1 & Ho1 & _ & Hy & _ & _ & Hv').
        rewrite Ho in Ho1. injection Ho1 as <-. rewrite Hv in Hv'. injection Hv' as ->. by eapply Hno.
      - rewrite Ho' in Ho1. injection Ho1 as <-. by apply Hsv. }
    assert (v = VNone ∨ ∃ x, v = VRef x) as [->|[x ->]].
    { assert (pkind t h o p = Some k) as HK' by (unfold pkind; by rewrite Hk). pose proof (proj2 (so_consistent _ _ (po_sound _ _ _ _ _ HP))) as HL. destruct k as [q|q|q|q| |q|p2 c2]; try done.
      - destruct (lk_single _ _ HL o p q _ HK' Hv) as [[= ->]|(x & ys & [= ->] & _)]; [by left|right; by exists x].
      - destruct (lk_one_one _ _ HL o p q _ HK' Hv) as [[= ->]|(x & [= ->] & _)]; [by left|right; by exists x]. }
    + exists VNone. split; [by apply vc_plain|]. by apply Hmiss.
    + assert (link_kind k = true) as Hlk by (by destruct k). assert (many_kind k = false) as Hmk by (by destruct k).
      destruct (link_single t pm Ht ck p k Hpk Hlk Hmk) as (c & Hcm & Hr & Hm).
      assert (sees t h o p (VRef x)) as Hsee. { exists ck. split; [done|]. rewrite Hpk. by destruct k. }
      destruct (po_refs _ _ _ _ _ HP id o ck c p x (assoc_in _ _ _ Ho) Hk Hcm Hr Hm Hsee) as (i & Hi' & _ & Hout).
      destruct (assoc i d) as [vx|] eqn:Ei.
      * specialize (Hout _ eq_refl). subst vx. destruct (Hhit i x Ei eq_refl) as (x' & Hx & Hvx). exists (VRef x'). split; [by apply vc_object|done].
      * assert (∀ y, assoc y d ≠ Some (VRef x)) as Hny.
        { intros y Hy. destruct (po_ids _ _ _ _ _ HP _ _ (assoc_in _ _ _ Hy)) as (? & [= <-] & Huy & _). pose proof (sees_det _ _ _ _ _ _ Hi' Huy) as [= ->]. by rewrite Ei in Hy. }
        exists VNone. split; [|apply Hmiss; intros y o2 Hy [= ->]; by apply (Hny y)]. apply vc_outside. intros x' (y & Hy & _). by apply (Hny y).
  - intros o o' q p ys Hco' Hpk Hys. destruct (Hcopy _ _ Hco') as (id & ck & K & c0 & Ho & Ho' & Hk & HK & HCL & Hex & Hfresh & Hc2 & Hkc & Hf & _ & Hn & Hu).
    assert (pkind t h o q = Some (PManyOne p)) as Hpk0 by done.
    unfold pkind in Hpk. rewrite Hk in Hpk. change (lookup_prop t ck q = Some (PManyOne p)) in Hpk. pose proof (ex_prop _ _ _ _ Hex _ _ Hpk) as HpT.
    destruct (C88_collection T tm base rdf f pf _ _ _ _ _ _ _ o' K q p HT Hsr (dict_alive_nil _) Hfor Hcomp Hco E Hc2 HpT) as (ys' & Hys' & Hnd & Hmem).
    exists ys'. split_and!; [done..|]. intros y'. rewrite Hmem. pose proof (proj2 (so_consistent _ _ (po_sound _ _ _ _ _ HP))) as HL. split.
    + intros [Hh|(x & p2 & y & ox' & cx' & Hs & Hx & Hy & -> & Hcx' & Hl)]; [by destruct (Hheld o' q y')|].
      pose proof (Hinj _ _ _ Ho' Hy) as ->. apply Hsay in Hs.
      destruct (says_view t pm Ht pf fint h d HP cim rdf es Hes Hcim Hroot heap_empty _ _ _ Hs) as (ox & o2 & cx & k1 & Hox & Hcx & Hy2 & Hl1 & Hk1 & Hv').
      rewrite Ho in Hy2. injection Hy2 as <-. assert (copy_of d d' ox ox') as Hcpx by (by exists x).
      destruct (Hcopy _ _ Hcpx) as (x2 & cx2 & Kx & cc & Hox2 & _ & Hcx2 & _ & _ & Hexx & _ & Hcx3 & _). rewrite Hcx in Hcx2. injection Hcx2 as <-.
      rewrite Hcx' in Hcx3. injection Hcx3 as <-. pose proof (ex_prop _ _ _ _ Hexx _ _ Hl1) as Hl2. rewrite Hl in Hl2. injection Hl2 as <-.
      assert (pkind t h ox p2 = Some (POneMany q)) as HK1 by (unfold pkind; by rewrite Hcx).
      destruct (lk_single _ _ HL ox p2 q _ HK1 Hv') as [?|(z & zs & [= <-] & _ & Hzs & Hin)]; [done|]. rewrite Hys in Hzs. injection Hzs as <-.
      by exists ox, ox'.
    + intros (x & x' & Hin & Hcx & ->). right.
      destruct (lk_coll _ _ HL o q p _ Hpk0 Hys) as (zs & [= <-] & _ & Hall). destruct (Hall _ Hin) as (x2 & p2 & [= <-] & (Hkx & _) & Hvx).
      destruct (Hcopy _ _ Hcx) as (idx & cx & Kx & cc & Hox & Hox' & Hckx & _ & _ & Hexx & _ & Hcx3 & _).
      unfold pkind in Hkx. rewrite Hckx in Hkx. change (lookup_prop t cx p2 = Some (POneMany q)) in Hkx.
      exists idx, p2, id, x', Kx. split_and!; try done; [|by apply (ex_prop _ _ _ _ Hexx)]. apply Hsay.
      by eapply (view_says t pm Ht pf fint h d HP cim rdf es Hes Hroot heap_empty idx p2 id x o cx (POneMany q)).
  - intros o o' ck K a v Hco' Hck HcK HplT Hnp Hdef. destruct (Hcopy _ _ Hco') as (id & k & K' & c0 & Ho & Ho' & Hk & HK & HCL & Hex & _ & Hc2 & _).
    rewrite Hck in Hk. injection Hk as <-. rewrite HcK in Hc2. injection Hc2 as <-.
    destruct (C87_attribute T tm base rdf _ pf _ _ _ _ _ _ _ id K a HT Hwf (dict_alive_nil _) Hfor E HK HplT) as (o2 & w0 & w & Ho2 & Hs & Htk & K2 & HK2 & Hw);
      [intros e r; by eapply Hap|]. rewrite Ho' in Ho2. injection Ho2 as <-. rewrite HcK in HK2. injection HK2 as <-.
    assert (about base rdf tm evs [] id a = []) as Hab. { rewrite about_same. by eapply about_none. }
    rewrite Hab in Htk. inversion Htk; subst w0 w. unfold starts in Hs. rewrite decide_False in Hs; [|intros ->; apply Hnp; by eapply uuid_plain].
    rewrite Hdef in Hs. injection Hs as <-. exists K. split; [done|]. pose proof HplT as (_ & HlT & _). rewrite HlT in Hw |- *. done.
  - intros o o' p k Hco' Hno Hpk. destruct (Hcopy _ _ Hco') as (id & ck & K & c0 & Ho & Ho' & Hk & HK & HCL & Hex & Hfresh & Hc2 & _).
    unfold pkind in Hno, Hpk. rewrite Hk in Hno. rewrite Hc2 in Hpk. change (lookup_prop t ck p = None) in Hno. change (lookup_prop T K p = Some k) in Hpk.
    assert (match k with POneMany _ | POneOne _ => True | _ => False end → view h2 o' (Priv p) = Some (OV VNone)) as H1.
    { intros Hkind. destruct (C88_unstated T tm base rdf f pf _ _ _ _ _ _ _ id K p k HT Hsr (dict_alive_nil _) Hfor Hcomp Hco E HK Hpk Hkind) as (o1 & Ho1 & K2 & HK2 & Hsh).
      - intros y Hs%Hsay. destruct (says_view t pm Ht pf fint h d HP cim rdf es Hes Hcim Hroot heap_empty _ _ _ Hs) as (o1 & o2 & ck1 & k1 & Ho1 & Hc1 & _ & Hl1 & _).
        rewrite Ho in Ho1. injection Ho1 as <-. rewrite Hk in Hc1. injection Hc1 as <-. by rewrite Hno in Hl1.
      - rewrite Ho' in Ho1. injection Ho1 as <-. rewrite Hc2 in HK2. injection HK2 as <-. rewrite Hpk in Hsh. by destruct k. }
    destruct k as [q|q|q|q| |q|p2 c2]; try done; [by apply H1| |by apply H1].
    destruct (C88_collection T tm base rdf f pf _ _ _ _ _ _ _ o' K p q HT Hsr (dict_alive_nil _) Hfor Hcomp Hco E Hc2 Hpk) as (ys' & Hys' & Hnd & Hmem).
    rewrite Hys'. destruct ys' as [|v ys']; [done|exfalso]. destruct (proj1 (Hmem v) (elem_of_list_here _ _)) as [Hh|(x & p2 & y & ox' & cx' & Hs & Hx & Hy & -> & Hcx' & Hl)]; [by destruct (Hheld o' p v)|].
    apply Hsay in Hs. pose proof (Hinj _ _ _ Ho' Hy) as ->.
    destruct (says_view t pm Ht pf fint h d HP cim rdf es Hes Hcim Hroot heap_empty _ _ _ Hs) as (ox & o2 & cx & k1 & Hox & Hcx & Hy2 & Hl1 & Hk1 & Hv').
    rewrite Ho in Hy2. injection Hy2 as <-. assert (copy_of d d' ox ox') as Hcpx by (by exists x).
    destruct (Hcopy _ _ Hcpx) as (x2 & cx2 & Kx & cc & Hox2 & _ & Hcx2 & _ & _ & Hexx & _ & Hcx3 & _). rewrite Hcx in Hcx2. injection Hcx2 as <-.
    rewrite Hcx' in Hcx3. injection Hcx3 as <-. pose proof (ex_prop _ _ _ _ Hexx _ _ Hl1) as Hl2. rewrite Hl in Hl2. injection Hl2 as <-.
    assert (pkind t h ox p2 = Some (POneMany p)) as HK1 by (unfold pkind; by rewrite Hcx).
    destruct (lk_single _ _ (proj2 (so_consistent _ _ (po_sound _ _ _ _ _ HP))) ox p2 p _ HK1 Hv') as [?|(z & zs & [= <-] & (_ & p3 & Hk3 & _) & _)]; [done|].
    unfold pkind in Hk3. rewrite Hk in Hk3. change (lookup_prop t ck p = Some (PManyOne p3)) in Hk3. by rewrite Hno in Hk3.
  - intros o o' q p Hco' Hpk. destruct (Hcopy _ _ Hco') as (id & ck & K & c0 & Ho & Ho' & Hk & HK & HCL & Hex & Hfresh & Hc2 & _).
    unfold pkind in Hpk. rewrite Hc2 in Hpk. change (lookup_prop T K q = Some (PManyMany p)) in Hpk.
    destruct (C88_many T tm base rdf f pf _ _ _ _ _ _ _ o' K q p HT Hsr (dict_alive_nil _) Hfor Hcomp Hco E Hc2 Hpk) as (ys' & Hys' & Hmem).
    rewrite Hys'. destruct ys' as [|v ys']; [done|exfalso]. destruct (proj1 (Hmem v) (elem_of_list_here _ _)) as [Hh|(x & y & Hs & _)]; [by destruct (Hheld o' q v)|].
    unfold doc_says_many in Hs. rewrite cross_statements in Hs. by apply cross_no_many in Hs.
Qed.
End main.
