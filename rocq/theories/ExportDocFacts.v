(** The documents of cimwrite meet what the theorems about single reads ask of
    a document, and fill collections in the order of the dictionary. *)
From Coq Require Import String ZArith Lia.
From stdpp Require Import prelude gmap.
From Verif Require Import PyStr PyHeap Schema Assoc AssocSpec HeapFacts LinksFacts AssocFacts CtorFacts HistorySpec Names
  TabCIM14 TabCIM15 TabProfiles Tables TableSpec TableFacts BlankFacts Reader ReaderSpec ReaderFacts CreateFacts StatementFacts ReadStepFacts ReadDocFacts.
From Verif Require Import XmlSpec WriteSpec WriteFacts RoundSpec RoundTables RoundDocFacts RoundFacts RoundMain DocSpec DocFacts HistoryFacts ReaderTabs RefFacts MemberSpec.

Section main.
Context (t : schema) (pm : list (name * name)) (Ht : (t, pm) ∈ tables) (pf : pystr → option pystr) (fint : pystr → option Z).
Context (h : heap) (d : dict) (HP : Portable t pm pf h d) (cim rdf : pystr) (es : list entry) (Hes : Writes_all t fint cim h d es).
Notation base := (u "{" ++ cim ++ u "}").
Context (Hcim : ∃ c r, cim = c :: r ∧ c ≠ 35%N) (Hroot : in_base base (root_elem rdf) = false).
Notation evs := (flat base (map (item_of rdf) es) ++ [EEnd (root_elem rdf)]).
Context (hr : heap).
Notation act p := (pel_elem base (pel_of rdf p)).
Notation cl := (class_in base rdf pm evs [] hr).
Notation sts := (flat_map (λ e, map (λ p, (en_id e, act p)) (en_props e)) es).

Lemma doc_foreign : foreign_root base evs.
Proof using Hroot.
  apply flat_foreign. intros e [He%elem_of_list_singleton|He%elem_of_list_singleton] _; [done|]. by injection He as ->.
Qed.
Lemma doc_class id k : declared_class base rdf pm evs id = Some k ↔ ∃ o, assoc id d = Some (VRef o) ∧ cls_of h o = Some k.
Proof using HP Hes Hroot.
  unfold declared_class. rewrite (declared_doc t pm pf fint h d HP cim rdf es Hes Hroot). split.
  - intros Hin%assoc_in. apply elem_of_reverse, elem_of_list_fmap in Hin as (e & [= -> ->] & He).
    destruct (written_entry t pm pf fint h d HP cim es Hes e He) as (o & c & Hin & _ & Hc & _ & Hn & Ha & _).
    exists o. split; [done|]. unfold class_of. by rewrite Hn, Ha.
  - intros (o & Hin & Hc). destruct (entry_written t pm pf fint h d HP cim es Hes id o Hin) as (e & He & Hw & Hid).
    destruct (written_entry t pm pf fint h d HP cim es Hes e He) as (o2 & c & Hin2 & _ & Hc2 & _ & Hn & Ha & _). rewrite Hid, Hin in Hin2. injection Hin2 as <-.
    rewrite Hc in Hc2. injection Hc2 as ->.
    apply assoc_NoDup; [|apply elem_of_reverse, elem_of_list_fmap; exists e; unfold class_of; by rewrite Hid, Hn, Ha].
    change (NoDup (fst <$> reverse (map (λ e, (en_id e, class_of pm e)) es))). rewrite reverse_Permutation.
    assert (fst <$> map (λ e, (en_id e, class_of pm e)) es = map fst d) as ->; [|apply HP].
    change (fst <$> map (λ e, (en_id e, class_of pm e)) es) with (map fst (map (λ e, (en_id e, class_of pm e)) es)). rewrite map_map. cbn [fst].
    apply (entry_ids t pm pf fint h d HP cim es Hes).
Qed.
Lemma doc_class_in id k : cl id = Some k ↔ ∃ o, assoc id d = Some (VRef o) ∧ cls_of h o = Some k.
Proof using HP Hes Hroot.
  unfold class_in. rewrite <- doc_class. destruct (declared_class base rdf pm evs id); done.
Qed.
Lemma entry_declared e : e ∈ es → is_Some (declared_class base rdf pm evs (en_id e)).
Proof using HP Hes Hroot.
  intros He. destruct (written_entry t pm pf fint h d HP cim es Hes e He) as (o & c & Hin & _ & Hc & _).
  exists (c_key c). apply doc_class; eauto.
Qed.
Lemma entry_class e : e ∈ es → is_Some (cl (en_id e)).
Proof using HP Hes Hroot. intros He. unfold class_in. destruct (entry_declared e He) as [k ->]. by exists k. Qed.
Lemma all_statements : doc_statements base rdf pm evs [] = sts.
Proof using HP Hes Hroot.
  apply statements_doc; [done|]. intros e He. destruct (entry_declared e He) as [k Hk]. unfold known_id. by rewrite Hk.
Qed.
Lemma comp_statements : statements base rdf (λ id, match cl id with Some _ => true | None => false end) None evs = sts.
Proof using HP Hes Hroot.
  apply statements_doc; [done|]. intros e He. destruct (entry_class e He) as [k Hk]. by rewrite Hk.
Qed.
Lemma statement_does id el : (id, el) ∈ sts → ∃ e o c p k, e ∈ es ∧ en_id e = id ∧ assoc id d = Some (VRef o) ∧ cls_of h o = Some (c_key c) ∧
  round_cls (mro t (c_key c)) = true ∧ p ∈ en_props e ∧ el = act p ∧ does t fint h cim o p k.
Proof using HP Hes Ht.
  intros Hin. apply elem_of_list_In, in_flat_map in Hin as (e & He%elem_of_list_In & Hin). apply elem_of_list_In, elem_of_list_fmap in Hin as (p & [= -> ->] & Hp).
  destruct (written_entry t pm pf fint h d HP cim es Hes e He) as (o & c & Hin & Hw & Hc & Hf & Hn & Ha & Hu).
  assert (round_cls (mro t (c_key c)) = true) as Hrc by (by eapply round_ok).
  destruct (writes_does_cls t fint h cim o (c_key c) e p Hc Hrc Hw Hp) as [k Hk]. by exists e, o, c, p, k.
Qed.
Lemma act_local c a p : c ∈ t → (a ∈ c_attrs c ∨ a ∈ c_refs c) → (match p with PText tg _ | PResource tg _ => tg end) = ptag c a →
  after_last_dot (local base (act p)) = a.
Proof using Ht.
  intros Hc Ha E. unfold local. destruct p as [tg s|tg s]; cbn [pel_elem pel_of p_tag e_tag]; cbn in E; subst tg; rewrite drop_app; by eapply name_local.
Qed.
Lemma act_resource p : resource rdf (act p) = match p with PText _ _ => None | PResource _ s => Some s end.
Proof.
  unfold resource. destruct p as [tg s|tg s]; cbn [pel_elem pel_of e_attrs p_attrs]; [apply rdf_attr_nil|apply rdf_attr_here].
Qed.
Lemma doc_compatible : compatible_doc base rdf t pm evs [] hr.
Proof using HP Hes Hroot Ht Hcim.
  unfold compatible_doc. cbv zeta. rewrite comp_statements. intros id el Hin.
  destruct (statement_does _ _ Hin) as (e & o & c0 & p & k & He & Hid & Ho & Hck & Hrc & Hp & -> & Hdo).
  exists (c_key c0). split; [apply doc_class_in; eauto|]. intros a (_ & _ & _ & Ha). rewrite act_resource.
  destruct Hdo as [ck c a' v dv s Hc Hcm Ha' Hne He' Hv Hdv Hneq Hs|ck c a' v dt s Hc Hcm Ha' Hne He' Hv Hs|ck c r x iv s Hc Hcm Hr Hm Hx Hi Hs];
    rewrite Hck in Hc; injection Hc as <-.
  - rewrite (act_local c a' _ (mro_sub _ _ _ Hcm) (or_introl Ha')) in Ha by reflexivity. subst a'.
    by destruct (round_attr_ok _ _ Hrc c a Hcm Ha' Hne) as [Hpl _].
  - rewrite (act_local c a' _ (mro_sub _ _ _ Hcm) (or_introl Ha')) in Ha by reflexivity. subst a'.
    destruct (round_attr_ok _ _ Hrc c a Hcm Ha' Hne) as [Hpl _]. destruct Hcim as (c1 & r1 & -> & H35). cbn [app].
    destruct (decide (c1 = 35%N)) as [?|_]; [done|]. by repeat case_match.
  - rewrite (act_local c r _ (mro_sub _ _ _ Hcm) (or_intror Hr)) in Ha by reflexivity. subst r. change (u "#" ++ s) with (35%N :: s). cbv iota.
    intros tk (x2 & Hx2 & Htk)%doc_class_in.
    destruct (po_refs _ _ _ _ _ HP id o _ c a x (assoc_in _ _ _ Ho) Hck Hcm Hr Hm Hx) as (i & Hi' & _ & Hout).
    pose proof (sees_det _ _ _ _ _ _ Hi Hi') as ->. assert (i = s) as -> by (by inversion Hs). specialize (Hout _ Hx2). injection Hout as ->.
    eapply (can_link t pm pf h d HP (c_key c0) o a x tk c); try done. by apply sees_slot.
Qed.
(** What the document states is what the graph holds. *)
Lemma refers_sees x a y ck : refers base rdf cl sts x a y → cl x = Some ck →
  ∃ o o2, assoc x d = Some (VRef o) ∧ cls_of h o = Some ck ∧ assoc y d = Some (VRef o2) ∧
    view h o (read_slot (lookup_prop t ck) a) = Some (OV (VRef o2)) ∧
    match lookup_prop t ck a with
    | Some (POneMany _) | Some (POneOne _) | Some PPrivate | None => True
    | Some (PAlias p _) => ∃ q, lookup_prop t ck p = Some (POneMany q)
    | _ => False
    end.
Proof using HP Hes Hroot Ht Hcim.
  intros (el & Hin & [(_ & _ & _ & Ha) Hres] & [tk Hy]) Hx.
  destruct (statement_does _ _ Hin) as (e & o & c0 & p & k & He & Hid & Ho & Hck & Hrc & Hp & -> & Hdo).
  apply doc_class_in in Hx as (o' & Ho' & Hx). rewrite Ho in Ho'. injection Ho' as <-. rewrite Hck in Hx. injection Hx as <-.
  apply doc_class_in in Hy as (o2 & Ho2 & Hy). rewrite act_resource in Hres.
  destruct Hdo as [ck c a' v dv s Hc Hcm Ha' Hne He' Hv Hdv Hneq Hs|ck c a' v dt s Hc Hcm Ha' Hne He' Hv Hs|ck c r z iv s Hc Hcm Hr Hm Hz Hi Hs];
    rewrite Hck in Hc; injection Hc as <-.
  - done.
  - exfalso. destruct Hcim as (c1 & r1 & Ecim & H35). rewrite Ecim in Hres. cbn [app] in Hres. change (u "#" ++ y) with (35%N :: y) in Hres.
    injection Hres as E1 _. by apply H35.
  - rewrite (act_local c r _ (mro_sub _ _ _ Hcm) (or_intror Hr)) in Ha by reflexivity. subst r.
    change (u "#" ++ s) with (35%N :: s) in Hres. change (u "#" ++ y) with (35%N :: y) in Hres. injection Hres as ->.
    destruct (po_refs _ _ _ _ _ HP x o _ c a z (assoc_in _ _ _ Ho) Hck Hcm Hr Hm Hz) as (i & Hi' & _ & Hout).
    pose proof (sees_det _ _ _ _ _ _ Hi Hi') as ->. assert (i = y) as -> by (by inversion Hs). specialize (Hout _ Ho2). injection Hout as <-.
    exists o, o2. split_and!; try done; [by apply sees_slot|].
    destruct (round_ref_ok _ _ Hrc c a Hcm Hr Hm) as [_ Hk]. by destruct (lookup_prop t (c_key c0) a) as [[]|].
Qed.
Lemma says_view x p y : says base rdf t cl sts x p y →
  ∃ o o2 ck k, assoc x d = Some (VRef o) ∧ cls_of h o = Some ck ∧ assoc y d = Some (VRef o2) ∧
    lookup_prop t ck p = Some k ∧ single_kind k = true ∧ view h o (Priv p) = Some (OV (VRef o2)).
Proof using HP Hes Hroot Ht Hcim.
  destruct 1 as [x p y ck q Hr Hx Hl|x a p y ck c Hr Hx Hl|x p p' y q ck tk Hr Hx Hy Hl Hm|x p y ck q Hr Hx Hl|x p y tk q Hr Hy Hl].
  - destruct (refers_sees _ _ _ _ Hr Hx) as (o & o2 & Ho & Hc & Ho2 & Hv & _). unfold read_slot in Hv. rewrite Hl in Hv. by eexists _, _, _, _.
  - destruct (refers_sees _ _ _ _ Hr Hx) as (o & o2 & Ho & Hc & Ho2 & Hv & Hk). unfold read_slot in Hv. rewrite Hl in Hv, Hk.
    destruct Hk as [q Hk]. by eexists _, _, _, _.
  - destruct (refers_sees _ _ _ _ Hr Hy) as (o & o2 & _ & _ & _ & _ & Hk). by rewrite Hl in Hk.
  - destruct (refers_sees _ _ _ _ Hr Hx) as (o & o2 & Ho & Hc & Ho2 & Hv & _). unfold read_slot in Hv. rewrite Hl in Hv. by eexists _, _, _, _.
  - destruct (refers_sees _ _ _ _ Hr Hy) as (o & o2 & Ho & Hc & Ho2 & Hv & _). unfold read_slot in Hv. rewrite Hl in Hv.
    assert (pkind t h o q = Some (POneOne p)) as HK by (unfold pkind; by rewrite Hc).
    destruct (lk_one_one _ _ (proj2 (so_consistent _ _ (po_sound _ _ _ _ _ HP))) o q p _ HK Hv) as [?|(x2 & [= <-] & (_ & Hk2) & Hback)]; [done|].
    destruct Hr as (_ & _ & _ & [ck Hck]). apply doc_class_in in Hck as (o3 & Ho3 & Hck). rewrite Ho2 in Ho3. injection Ho3 as <-.
    unfold pkind in Hk2. rewrite Hck in Hk2. by eexists _, _, _, _.
Qed.
Lemma says_no_many x p y : ¬ says_many base rdf t cl sts x p y.
Proof using HP Hes Hroot Ht Hcim.
  destruct 1 as [x p y ck q Hr Hx Hl|x p y tk q Hr Hy Hl]; [destruct (refers_sees _ _ _ _ Hr Hx) as (? & ? & _ & _ & _ & _ & Hk)|
    destruct (refers_sees _ _ _ _ Hr Hy) as (? & ? & _ & _ & _ & _ & Hk)]; by rewrite Hl in Hk.
Qed.
Lemma doc_coherent : coherent base rdf t pm evs [] hr.
Proof using HP Hes Hroot Ht Hcim.
  split.
  - rewrite all_statements. intros x p y y' H H'.
    destruct (says_view _ _ _ H) as (o & o2 & ck & k & Ho & _ & Hy & _ & _ & Hv). destruct (says_view _ _ _ H') as (o' & o2' & ck' & k' & Ho' & _ & Hy' & _ & _ & Hv').
    rewrite Ho in Ho'. injection Ho' as <-. rewrite Hv in Hv'. injection Hv' as <-.
    destruct (po_ids _ _ _ _ _ HP _ _ (assoc_in _ _ _ Hy)) as (? & [= <-] & Hu & _).
    destruct (po_ids _ _ _ _ _ HP _ _ (assoc_in _ _ _ Hy')) as (? & [= <-] & Hu' & _).
    pose proof (sees_det _ _ _ _ _ _ Hu Hu') as [= <-]. done.
  - intros x p y H. unfold doc_says in H. rewrite all_statements in H. destruct (says_view _ _ _ H) as (o & o2 & ck & k & Ho & Hc & _).
    exists ck. apply doc_class. eauto.
Qed.
(** Only the object described by an element comes into a collection. *)
Lemma doc_arrival d' o q id el m v : (id, el) ∈ sts → arrival base rdf t cl d' o q (id, el) = Some (m, v) → m ≠ Repeats ∧ assoc id d' = Some v.
Proof using HP Hes Hroot Ht Hcim.
  intros Hin. destruct (statement_does _ _ Hin) as (e & o1 & c0 & p & k & He & Hid & Ho & Hck & Hrc & Hp & -> & Hdo).
  unfold arrival. cbn [fst snd]. rewrite act_resource.
  destruct Hdo as [ck c a' v' dv s Hc Hcm Ha' Hne He' Hv Hdv Hneq Hs|ck c a' v' dt s Hc Hcm Ha' Hne He' Hv Hs|ck c r z iv s Hc Hcm Hr Hm Hz Hi Hs];
    rewrite Hck in Hc; injection Hc as <-.
  - done.
  - destruct Hcim as (c1 & r1 & -> & H35). cbn [app]. by repeat case_match.
  - rewrite (act_local c r _ (mro_sub _ _ _ Hcm) (or_intror Hr)) by reflexivity. change (u "#" ++ s) with (35%N :: s). cbv iota zeta.
    assert (cl id = Some (c_key c0)) as Hcl by (apply doc_class_in; eauto). rewrite Hcl. cbn [mbind option_bind].
    destruct (assoc id d') as [vi|]; [|done]. cbn [mbind option_bind]. destruct (assoc s d') as [vid|]; [|done]. cbn [mbind option_bind].
    destruct (round_ref_ok _ _ Hrc c r Hcm Hr Hm) as [_ Hk].
    destruct (lookup_prop t (c_key c0) r) as [[q'|q'|q'|q'| |q'|p' c']|]; try done.
    + case_decide; [|done]. by intros [= <- <-].
    + destruct (lookup_prop t (c_key c0) p') as [[q'| | | | | |]|]; try done. case_decide; [|done]. intros [= <- <-]. split; [|done]. by case_decide.
Qed.
(** And conversely. *)
Lemma written_ref id o ck c r x y : assoc id d = Some (VRef o) → cls_of h o = Some ck → c ∈ mro t ck → r ∈ c_refs c → r ∉ c_many c →
  sees t h o r (VRef x) → sees t h x (u "UUID") (VStr y) → (id, act (PResource (ptag c r) (u "#" ++ y))) ∈ sts.
Proof using HP Hes Ht.
  intros Hin Hck Hc Hr Hm Hv Hy. destruct (entry_written t pm pf fint h d HP cim es Hes id o Hin) as (e & He & Hw & Hid).
  destruct (written_entry t pm pf fint h d HP cim es Hes e He) as (o2 & c0 & Hin2 & _ & Hc2 & Hf2 & _ & _ & Hu). rewrite Hid, Hin in Hin2. injection Hin2 as <-.
  rewrite Hck in Hc2. injection Hc2 as ->. assert (round_cls (mro t (c_key c0)) = true) as Hrc by (by eapply round_ok).
  destruct Hw as (k & top & below & as_ & es' & rs & Hk & Hf & Em & Hn & Hs & H1 & H2 & H3 & Hp).
  rewrite Hck in Hk. injection Hk as Hk. rewrite <- Hk in *. destruct (round_split _ _ Hrc below top Em) as (_ & Htop & _).
  assert (c ∈ below) as Hb. { pose proof Hc as Hc'. rewrite Em in Hc'. apply elem_of_app in Hc' as [?|Hx]; [done|]. apply elem_of_list_singleton in Hx. subst c.
    rewrite Htop in Hr. by apply elem_of_nil in Hr. }
  rewrite <- elem_of_reverse in Hb. destruct (listed_get _ _ _ _ H3 Hb) as (r1 & Hl & Hr1). destruct (listed_get _ _ _ _ Hl Hr) as (r2 & Ho & Hr2).
  destruct Ho as [[? _]|(_ & [[Hv' _]|(x' & i & s & Hx & Hi & Hs' & ->)])]; [done|by pose proof (sees_det _ _ _ _ _ _ Hv Hv')|].
  pose proof (sees_det _ _ _ _ _ _ Hv Hx) as [= <-]. pose proof (sees_det _ _ _ _ _ _ Hy Hi) as <-. assert (y = s) as <- by (by inversion Hs').
  apply elem_of_list_In, in_flat_map. exists e. split; [by apply elem_of_list_In|]. apply elem_of_list_In, elem_of_list_fmap.
  exists (PResource (ptag c r) (u "#" ++ y)). split; [by rewrite Hid|]. rewrite Hp. apply elem_of_app. right. apply elem_of_app. right.
  apply Hr1, Hr2. by left.
Qed.
Lemma view_says x p y o o2 ck k : assoc x d = Some (VRef o) → cls_of h o = Some ck → assoc y d = Some (VRef o2) →
  lookup_prop t ck p = Some k → single_kind k = true → view h o (Priv p) = Some (OV (VRef o2)) → says base rdf t cl sts x p y.
Proof using HP Hes Hroot Ht.
  intros Ho Hc Hy Hl Hk Hv. assert (link_kind k = true) as Hlk by (by destruct k). assert (many_kind k = false) as Hmk by (by destruct k).
  destruct (link_single t pm Ht ck p k Hl Hlk Hmk) as (c & Hcm & Hr & Hm).
  assert (sees t h o p (VRef o2)) as Hs. { exists ck. split; [done|]. rewrite Hl. by destruct k. }
  destruct (po_ids _ _ _ _ _ HP _ _ (assoc_in _ _ _ Hy)) as (? & [= <-] & Hu & _).
  pose proof (written_ref x o ck c p o2 y Ho Hc Hcm Hr Hm Hs Hu) as Hin.
  assert (cl x = Some ck) as Hcx by (apply doc_class_in; eauto).
  assert (is_Some (cl y)) as Hcy. { destruct (dict_obj _ _ _ _ _ HP _ _ Hy) as (? & cy & [= <-] & _ & Hcy & _). exists (c_key cy). apply doc_class_in. eauto. }
  assert (refers base rdf cl sts x p y) as Href.
  { exists (act (PResource (ptag c p) (u "#" ++ y))). split; [done|]. split; [|done]. split; [|apply act_resource]. split_and!.
    - apply pel_base.
    - apply pel_no_id.
    - apply pel_no_id.
    - eapply act_local; [by eapply mro_sub|by right|done]. }
  destruct k as [q|q|q|q| |q|a c']; try done; [by eapply says_single|by eapply says_pair].
Qed.
Lemma doc_self_contained : self_contained base rdf pm evs [].
Proof using HP Hes Hroot Ht.
  intros id e. rewrite all_statements. intros (en & o & c & p & k & He & Hid & Ho & Hc & _)%statement_does. exists (c_key c). apply doc_class. eauto.
Qed.
Lemma doc_attributes_plain : attributes_plain base rdf t pm evs [].
Proof using HP Hes Hroot Ht Hcim.
  intros id k a e r Hd (Hpub & Hl & c1 & Hc1 & Ha1) Hin Hr. unfold about in Hin. rewrite all_statements in Hin.
  apply elem_of_list_omap in Hin as ([i e'] & Hin & E). cbn [fst snd] in E. case_decide as Hdec; [|done]. destruct Hdec as [-> Ha]. injection E as ->.
  destruct (statement_does _ _ Hin) as (en & o & c0 & p & ky & He & Hid & Ho & Hck & Hrc & Hp & -> & Hdo). rewrite act_resource in Hr.
  apply doc_class in Hd as (o' & Ho' & Hd). rewrite Ho in Ho'. injection Ho' as <-. rewrite Hck in Hd. injection Hd as <-.
  destruct Hdo as [ck c a' v dv s Hc Hcm Ha' Hne He' Hv Hdv Hneq Hs|ck c a' v dt s Hc Hcm Ha' Hne He' Hv Hs|ck c r' x iv s Hc Hcm Hr' Hm Hx Hi Hs];
    rewrite Hck in Hc; injection Hc as <-.
  - done.
  - injection Hr as <-. destruct Hcim as (c2 & r2 & -> & H35). unfold has_prefix. apply str_eqb_neq. cbn [app]. change (u "#") with [35%N]. cbn [length take]. congruence.
  - exfalso. rewrite (act_local c r' _ (mro_sub _ _ _ Hcm) (or_intror Hr')) in Ha by reflexivity. subst r'.
    destruct (round_ref_ok _ _ Hrc c a Hcm Hr' Hm) as [_ Hk]. rewrite Hl in Hk. by apply (Hk c1).
Qed.
Lemma doc_instantiable : instantiable base rdf pm evs.
Proof using HP Hes Hroot.
  intros id k. rewrite (declared_doc t pm pf fint h d HP cim rdf es Hes Hroot). intros (e & [= -> ->] & He)%elem_of_list_fmap.
  destruct (written_entry t pm pf fint h d HP cim es Hes e He) as (o & c & _ & _ & _ & _ & Hn & Ha & Hu). unfold class_of. by rewrite Hn, Ha.
Qed.
End main.

(** *** Order *)
Lemma filter_absent (v : val) (ys : list val) : v ∉ ys → filter (λ y, y ≠ v) ys = ys.
Proof.
  induction ys as [|y ys IH]; [done|]. intros [Hne Hni]%not_elem_of_cons. rewrite filter_cons. rewrite decide_True by congruence. by rewrite IH.
Qed.
Section order.
Context (base rdf : pystr) (S : schema) (cl : pystr → option name) (d : dict) (o : nat) (q : name).
Notation arrival := (arrival base rdf S cl d o q).
Notation joins := (joins base rdf S cl d o q).
Lemma joins_one w sts : (∀ st, st ∈ sts → ∀ m v, arrival st = Some (m, v) → m ≠ Repeats ∧ v = w) →
  ∀ ys, w ∉ ys → joins sts ys = ys ∨ joins sts ys = ys ++ [w].
Proof.
  intros Hall ys Hni. assert (∀ zs, zs = ys ∨ zs = ys ++ [w] → joins sts zs = ys ∨ joins sts zs = ys ++ [w]) as H; [|by apply H; left].
  induction sts as [|st sts IH]; intros zs Hz; [done|]. cbn [MemberSpec.joins fold_left]. unfold MemberSpec.joins in IH.
  apply IH; [intros st' Hst'; apply Hall; by right|]. unfold join. destruct (arrival st) as [[m v]|] eqn:E; [|done].
  destruct (Hall st (elem_of_list_here _ _) _ _ E) as [Hm ->]. destruct Hz as [->| ->].
  - right. destruct m; cbn [joined]; [by rewrite decide_False|by rewrite filter_absent|done].
  - right. destruct m; cbn [joined]; [|rewrite filter_app, (filter_absent _ _ Hni), filter_cons, decide_False by (intros []; done); cbn; by rewrite app_nil_r|done].
    rewrite decide_True; [done|]. apply elem_of_app. right. by apply elem_of_list_singleton.
Qed.
Lemma joins_order {A} (f : A → list (pystr * elem)) (w : A → val) es :
  (∀ e, e ∈ es → ∀ st, st ∈ f e → ∀ m v, arrival st = Some (m, v) → m ≠ Repeats ∧ v = w e) → NoDup (map w es) →
  ∀ ys, (∀ e, e ∈ es → w e ∉ ys) → ∃ zs, joins (flat_map f es) ys = ys ++ zs ∧ zs `sublist_of` map w es.
Proof.
  induction es as [|e es IH]; intros Hall Hnd ys Hni; [exists []; split; [by rewrite app_nil_r|constructor]|].
  cbn [map] in Hnd. apply NoDup_cons in Hnd as [Hne Hnd]. cbn [flat_map map]. unfold MemberSpec.joins. rewrite fold_left_app.
  assert (∀ e', e' ∈ es → w e' ≠ w e) as Hdist.
  { intros e' He' E. apply Hne. rewrite <- E. apply elem_of_list_fmap. eauto. }
  destruct (joins_one (w e) (f e) (Hall e (elem_of_list_here _ _)) ys (Hni e (elem_of_list_here _ _))) as [E|E]; unfold MemberSpec.joins in E; rewrite E.
  - destruct (IH (λ e' He', Hall e' (elem_of_list_further _ _ _ He')) Hnd ys) as (zs & Ez & Hz); [intros e' He'; apply Hni; by right|].
    exists zs. split; [exact Ez|]. by apply sublist_cons.
  - destruct (IH (λ e' He', Hall e' (elem_of_list_further _ _ _ He')) Hnd (ys ++ [w e])) as (zs & Ez & Hz).
    { intros e' He' [Hin|Hin%elem_of_list_singleton]%elem_of_app; [|by apply (Hdist e')]. revert Hin. apply Hni. by right. }
    exists (w e :: zs). split; [|by apply sublist_skip]. unfold MemberSpec.joins in Ez. rewrite Ez. by rewrite <- app_assoc.
Qed.
End order.
