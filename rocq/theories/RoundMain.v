(** Reading back a document of cimwrite: both passes. *)
From Coq Require Import String ZArith Lia.
From stdpp Require Import prelude gmap.
From Verif Require Import PyStr PyHeap Schema Assoc AssocSpec HeapFacts LinksFacts AssocFacts AddRemoveFacts CtorFacts
  HistorySpec HistoryFacts Names TabCIM14 TabCIM15 TabProfiles Tables TableSpec TableFacts BlankFacts Reader ReaderSpec
  ReaderFacts FrameFacts StatementFacts CreateFacts ReaderTabs CompatFacts ReadSound NumFacts DigitFacts ReadStepFacts ReadDocFacts.
From Verif Require Import XmlSpec XmlCalls WriteSpec WriteFacts WriteTables RoundSpec RoundTables RoundDocFacts RoundFacts.

Lemma add_keys_NoDup new : ∀ ks, NoDup (ks ++ new) → add_keys ks new = ks ++ new.
Proof.
  induction new as [|k new IH]; intros ks Hn; cbn [add_keys]; [by rewrite app_nil_r|].
  rewrite (cons_middle k ks new), app_assoc in Hn |- *. destruct (existsb (str_eqb k) ks) eqn:E; [|by apply IH].
  apply ReaderFacts.existsb_str in E. apply NoDup_app in Hn as (Hn & _). apply NoDup_app in Hn as (_ & Hn & _). destruct (Hn k E). by left.
Qed.

Lemma id_attr c : id_char c = true → attr_char c = true.
Proof.
  unfold id_char, id_start. intros H. rewrite !orb_true_iff, !andb_true_iff, !N.leb_le, !N.eqb_eq in H.
  assert (45 <= c ∧ c <= 122)%N as [H1 H2] by lia. clear H.
  unfold attr_char, data_char. rewrite !andb_true_iff, !negb_true_iff, !N.eqb_neq. split_and!; try lia.
  unfold xml_char. rewrite !orb_true_iff, !andb_true_iff, !N.leb_le, !N.eqb_eq. lia.
Qed.

Section main.
Context (t : schema) (pm : list (name * name)) (Ht : (t, pm) ∈ tables) (pf : pystr → option pystr) (fint : pystr → option Z).
Context (h : heap) (d : dict) (HP : Portable t pm pf h d) (cim rdf : pystr) (es : list entry) (Hes : Writes_all t fint cim h d es).

Lemma written_entry e : e ∈ es → ∃ o c, assoc (en_id e) d = Some (VRef o) ∧ Writes t fint cim h o e ∧ cls_of h o = Some (c_key c) ∧
  find_cls t (c_key c) = Some c ∧ en_class e = c_name c ∧ assoc (c_name c) pm = Some (c_key c) ∧ c_key c ∉ unconstructible.
Proof using HP Hes.
  intros He. apply elem_of_list_lookup in He as [i Hi]. eapply Forall2_lookup_r in Hes as ([id v] & Hd & o & Hv & Hw); [|done].
  cbn [snd] in Hv. subst v. apply elem_of_list_lookup_2 in Hd.
  pose proof Hw as (k & top & below & as_ & es' & rs & Hc & Hf & _ & Hn & Hs & _).
  destruct (po_ids _ _ _ _ _ HP _ _ Hd) as (o2 & [= <-] & Hs2 & _). pose proof (sees_det _ _ _ _ _ _ Hs Hs2) as [= ->].
  destruct (po_class _ _ _ _ _ HP _ _ Hd) as (c & Hc2 & Hf2 & Hn2 & Hu). rewrite Hc in Hc2. injection Hc2 as Hck. rewrite Hck in Hf.
  rewrite Hf in Hf2. injection Hf2 as ->. exists o, c. split_and!; try done. by apply (dict_in _ _ _ _ _ HP).
Qed.
Lemma entry_ids : map en_id es = map fst d.
Proof using HP Hes.
  assert (∀ d0 es0, (∀ x, x ∈ d0 → x ∈ d) → Forall2 (λ kv e, ∃ o, kv.2 = VRef o ∧ Writes t fint cim h o e) d0 es0 → map en_id es0 = map fst d0) as H.
  2:{ by apply H. }
  intros d0 es0 Hsub. induction 1 as [|[id v] e d0 es0 (o & Hv & Hw) Hl IH]; [done|]. cbn [map]. f_equal.
  - cbn [snd fst] in *. subst v. destruct Hw as (k & top & below & as_ & es' & rs & Hc & Hf & _ & Hn & Hs & _).
    destruct (po_ids _ _ _ _ _ HP id (VRef o)) as (o2 & [= <-] & Hs2 & _); [apply Hsub; by left|].
    by pose proof (sees_det _ _ _ _ _ _ Hs Hs2) as [= ->].
  - apply IH. intros x Hx. apply Hsub. by right.
Qed.
Lemma entry_written id o : assoc id d = Some (VRef o) → ∃ e, e ∈ es ∧ Writes t fint cim h o e ∧ en_id e = id.
Proof using HP Hes.
  intros Hin. destruct (written _ _ _ _ _ es Hes _ _ Hin) as (e & He & Hw). exists e. split_and!; [done|done|].
  apply (dict_in _ _ _ _ _ HP) in Hin. destruct (po_ids _ _ _ _ _ HP _ _ Hin) as (o2 & [= <-] & Hs2 & _).
  destruct Hw as (k & top & below & as_ & es' & rs & Hc & Hf & _ & Hn & Hs & _). by pose proof (sees_det _ _ _ _ _ _ Hs Hs2) as [= ->].
Qed.
(** Only characters that XML hands back. *)
Lemma portable_chars : forallb attr_char cim = true → ∀ e, e ∈ es → chars_ok data_char attr_char e.
Proof using HP Hes Ht.
  intros Hcim e He. destruct (written_entry e He) as (o & c0 & Hin & Hw & Hc0 & Hf & Hn & Ha & Hu).
  pose proof (proj1 (dict_in _ _ _ _ _ HP _ _) Hin) as Hd.
  destruct (po_ids _ _ _ _ _ HP _ _ Hd) as (o2 & [= <-] & _ & Hid).
  split; [done|]. intros p Hp.
  assert (round_cls (mro t (c_key c0)) = true) as Hrc by (by eapply round_ok).
  pose proof Hw as (k & top & below & as_ & es' & rs & Hc & Hf' & Em & _ & Hs & H1 & H2 & H3 & Hpr). rewrite Hc0 in Hc. injection Hc as Hk. rewrite <- Hk in *.
  destruct (round_split _ _ Hrc below top Em) as (_ & _ & Hnu).
  assert (∀ c, c ∈ below → c ∈ mro t (c_key c0)) as Hm by (intros c ?; rewrite Em; apply elem_of_app; by left).
  rewrite Hpr in Hp. apply elem_of_app in Hp as [Hp|[Hp|Hp]%elem_of_app].
  - destruct (listed_in _ _ _ _ H1 Hp) as (c & r' & Hc' & Hl & Hin'). rewrite elem_of_reverse in Hc'.
    destruct (listed_in _ _ _ _ Hl Hin') as (a & r'' & Haa & Ho & Hin'').
    destruct Ho as [[_ ->]|(Hen & v & dv & Hv & Hdv & [[_ ->]|(Hne & s & Hs' & ->)])]; [by apply elem_of_nil in Hin''..|].
    apply elem_of_list_singleton in Hin'' as ->. pose proof (Hnu _ _ Hc' Haa) as Hnuu.
    pose proof (po_attrs _ _ _ _ _ HP _ _ _ c a v Hd Hc0 (Hm _ Hc') Haa Hnuu Hv) as Hfit. rewrite Hen in Hfit. specialize (Hfit _ Hdv).
    destruct (round_attr_ok _ _ Hrc c a (Hm _ Hc') Haa Hnuu) as [_ Hd2]. rewrite Hen in Hd2. destruct Hd2 as (dv' & Hd2 & _ & Hz). rewrite Hdv in Hd2. injection Hd2 as <-.
    by apply (fits_converts _ _ _ _ _ _ Hfit Hz Hne Hs' (or_introl eq_refl)).
  - destruct (listed_in _ _ _ _ H2 Hp) as (c & r' & Hc' & Hl & Hin'). rewrite elem_of_reverse in Hc'.
    destruct (listed_in _ _ _ _ Hl Hin') as (a & r'' & Haa & Ho & Hin'').
    destruct Ho as [[_ ->]|(dt & v & s & Hen & Hv & Hs' & ->)]; [by apply elem_of_nil in Hin''|].
    apply elem_of_list_singleton in Hin'' as ->. pose proof (Hnu _ _ Hc' Haa) as Hnuu.
    pose proof (po_attrs _ _ _ _ _ HP _ _ _ c a v Hd Hc0 (Hm _ Hc') Haa Hnuu Hv) as Hfit. rewrite Hen in Hfit. destruct Hfit as (s' & -> & Hs1 & _).
    assert (s' = s) as -> by (by inversion Hs').
    destruct (round_attr_ok _ _ Hrc c a (Hm _ Hc') Haa Hnuu) as [_ Hd2]. rewrite Hen in Hd2.
    assert (forallb attr_char dt = true) as Hdt.
    { apply forallb_forall. intros x Hx. rewrite forallb_forall in Hd2. by apply id_attr, Hd2. }
    assert (forallb attr_char (u ".") = true) as Hdot by done.
    by rewrite !forallb_app, Hcim, Hs1, Hdt, Hdot.
  - destruct (listed_in _ _ _ _ H3 Hp) as (c & r' & Hc' & Hl & Hin'). rewrite elem_of_reverse in Hc'.
    destruct (listed_in _ _ _ _ Hl Hin') as (a & r'' & Haa & Ho & Hin'').
    destruct Ho as [[_ ->]|(Hm' & [[_ ->]|(x & i & s & Hx & Hi & Hs' & ->)])]; [by apply elem_of_nil in Hin''..|].
    apply elem_of_list_singleton in Hin'' as ->.
    destruct (po_refs _ _ _ _ _ HP _ _ _ c a x Hd Hc0 (Hm _ Hc') Haa Hm' Hx) as (i' & Hi' & Hch & _).
    pose proof (sees_det _ _ _ _ _ _ Hi Hi') as ->. assert (i' = s) as -> by (by inversion Hs').
    by rewrite forallb_app, Hch.
Qed.

Notation base := (u "{" ++ cim ++ u "}").
Context (Hcim : ∃ c r, cim = c :: r ∧ c ≠ 35%N) (Hroot : in_base base (root_elem rdf) = false).
Notation evs := (flat base (map (item_of rdf) es) ++ [EEnd (root_elem rdf)]).
Definition class_of (e : entry) : name := default [] (assoc (en_class e) pm).
Lemma declared_doc : declared base rdf pm evs = map (λ e, (en_id e, class_of e)) es.
Proof using HP Hes Hroot.
  rewrite declared_flat, (declared_root _ _ _ _ Hroot), app_nil_r. apply declared_known. intros e He.
  destruct (written_entry e He) as (o & c & _ & _ & _ & _ & Hn & Ha & _). unfold class_of. by rewrite Hn, Ha.
Qed.
Lemma round_reads hr f : Sound t hr → ∃ d' h2,
  reads base rdf t pm (S (S f)) pf false (root_elem rdf) evs [] hr = (None, d', h2) ∧
  Copies t h d h2 d' ∧ loses_collections t h d h2 d' ∧ Adds hr h2 d' ∧ Sound t h2.
Proof using HP Hes Hroot Ht Hcim.
  intros Hsr. pose proof (proj1 (so_consistent _ _ Hsr)) as Hwf. pose proof (tables_makes t pm Ht) as Hmk.
  assert (foreign_root base evs) as Hfor.
  { apply flat_foreign. intros e [He%elem_of_list_singleton|He%elem_of_list_singleton] _; [done|]. by injection He as ->. }
  destruct (pass1_returns t pm (S f) base rdf evs Hmk Hfor) with (c := false) (d := @nil (pystr * val)) (h := hr) as (d' & h1 & E1); [|done|].
  { intros id k Hin. rewrite declared_doc in Hin. apply elem_of_list_fmap in Hin as (e & [= -> ->] & He).
    destruct (written_entry e He) as (o & c & _ & _ & _ & _ & Hn & Ha & Hu). unfold class_of. rewrite Hn, Ha. cbn [default from_option].
    destruct (blank_ws _ _ _ _ Ht Ha Hu) as (ws & Hws & _). by rewrite Hws. }
  pose proof (pass1_created _ _ _ _ _ _ _ Hmk Hfor _ _ _ _ _ Hwf E1) as HC.
  pose proof (Created_Sound t pm Ht base rdf _ _ _ _ _ Hsr HC) as Hs1.
  assert (map fst d' = map fst d) as Hkeys.
  { rewrite (cr_keys _ _ _ _ _ _ HC), declared_doc, map_map. cbn [fst map]. change (map (λ x, en_id x) es) with (map en_id es). rewrite entry_ids.
    rewrite add_keys_NoDup; [done|]. apply HP. }
  assert (∀ id o, assoc id d = Some (VRef o) → ∃ o' ck, assoc id d' = Some (VRef o') ∧ cls_of h o = Some ck ∧
    cls_of h1 o' = Some ck ∧ cls_of hr o' = None ∧ ∀ ky, view h1 o' ky = bview t ck id ky) as Hnew.
  { intros id o Hin. destruct (entry_written id o Hin) as (e & He & Hw & Hid).
    destruct (written_entry e He) as (o2 & c & Hin2 & _ & Hc & _ & Hn & Ha & _). rewrite Hid, Hin in Hin2. injection Hin2 as <-.
    destruct (cr_new _ _ _ _ _ _ HC id (c_key c)) as (o' & Ho' & Hnone & Hc' & Hv).
    { rewrite declared_doc. apply assoc_NoDup; [|apply elem_of_reverse, elem_of_list_fmap; exists e; unfold class_of; by rewrite Hid, Hn, Ha].
      change (NoDup (fst <$> reverse (map (λ e, (en_id e, class_of e)) es))). rewrite reverse_Permutation.
      assert (fst <$> map (λ e, (en_id e, class_of e)) es = map fst d) as ->; [|apply HP].
      change (fst <$> map (λ e, (en_id e, class_of e)) es) with (map fst (map (λ e, (en_id e, class_of e)) es)). rewrite map_map. cbn [fst]. apply entry_ids. }
    exists o', (c_key c). by split_and!. }
  assert (∀ id o, assoc id d = Some (VRef o) → ∃ o' ck, assoc id d' = Some (VRef o') ∧ cls_of h o = Some ck ∧
    cls_of h1 o' = Some ck ∧ ∀ ky, view h1 o' ky = bview t ck id ky) as Hnew'.
  { intros id o Hin. destruct (Hnew id o Hin) as (o' & ck & ? & ? & ? & _ & ?). exists o', ck. by split_and!. }
  assert (∀ e, e ∈ es → is_Some (assoc (en_id e) d')) as Hknown.
  { intros e He. destruct (written_entry e He) as (o & _ & Hin & _). destruct (Hnew' _ _ Hin) as (o' & _ & -> & _). by eexists. }
  assert (statements base rdf (known d') None evs = flat_map (λ e, map (λ p, (en_id e, pel_elem base (pel_of rdf p))) (en_props e)) es) as Hst.
  { apply statements_doc; [done|]. intros e He. unfold known. by destruct (Hknown e He) as [? ->]. }
  destruct (exec_step t pm Ht pf fint h d HP d' h1 Hkeys Hnew' cim rdf Hcim f (statements base rdf (known d') None evs)) with (hc := h1) as (h2 & E2 & HS2 & HD).
  { intros id e Hin. rewrite Hst in Hin. apply elem_of_list_In, in_flat_map in Hin as (en & Hen%elem_of_list_In & Hin).
    apply elem_of_list_In, elem_of_list_fmap in Hin as (p & Hp & Hpin). pose proof (f_equal fst Hp) as Eid. pose proof (f_equal snd Hp) as Ee. cbn [fst snd] in Eid, Ee.
    destruct (written_entry en Hen) as (o & _ & Ho & Hw & _). destruct (copy_intro _ _ _ _ _ Hnew' _ _ Ho) as (o' & _ & Hcp).
    destruct (writes_does t pm Ht pf fint h d HP d' h1 Hnew' cim o o' en p Hcp Hw Hpin) as [k Hk]. exists o, p, k. by rewrite Eid. }
  { by apply Step_refl. }
  exists d', h2. split.
  { rewrite reads_exec, E1, E2. done. }
  assert (∀ id o p k e, assoc id d = Some (VRef o) → e ∈ es → Writes t fint cim h o e → p ∈ en_props e → does t fint h cim o p k → Done h d d' h2 o k) as HD2.
  { intros id o p k e Ho He Hw Hp Hd. destruct (entry_written id o Ho) as (e2 & He2 & Hw2 & Hid).
    apply (HD id o p k); [|done|done]. rewrite Hst. apply elem_of_list_In, in_flat_map. exists e. split; [by apply elem_of_list_In|].
    apply elem_of_list_In, elem_of_list_fmap. exists p. split; [|done]. f_equal.
    destruct Hw as (k1 & ? & ? & ? & ? & ? & _ & _ & _ & _ & Hs & _). destruct Hw2 as (k2 & ? & ? & ? & ? & ? & _ & _ & _ & _ & Hs2 & _).
    pose proof (sees_det _ _ _ _ _ _ Hs Hs2) as [= ->]. done. }
  split_and!.
  - by eapply (final_copies t pm Ht pf fint h d HP d' h1 Hs1 Hkeys Hnew' cim h2 HS2 es Hes HD2).
  - by eapply (final_lost t pm Ht pf h d HP d' h1 Hnew' h2 HS2).
  - split.
    + intros o k Ho. destruct (cr_frame _ _ _ _ _ _ HC o k Ho) as [Hc Hv]. split; [by rewrite (st_classes _ _ _ _ _ _ HS2)|].
      destruct (st_views _ _ _ _ _ _ HS2 o k) as [->|(o2 & ck & (id & Hin & Hin') & _)]; [done|]. exfalso.
      destruct (Hnew _ _ Hin) as (o' & ? & Ho' & _ & _ & Hnone & _). rewrite Hin' in Ho'. injection Ho' as <-. rewrite Hnone in Ho. by destruct Ho.
    + intros id o' Hin'. destruct (assoc_keys d d' Hkeys id) as [v Hv]; [eauto|].
      destruct (dict_obj _ _ _ _ _ HP _ _ Hv) as (o & _ & -> & _). destruct (Hnew _ _ Hv) as (o2 & ? & Ho' & _ & _ & Hnone & _).
      rewrite Hin' in Ho'. by injection Ho' as <-.
  - apply HS2.
Qed.
End main.
