(** The document cimwrite produces, parsed again. *)
From Coq Require Import String ZArith Lia.
From stdpp Require Import prelude gmap.
From Verif Require Import PyStr PyHeap Schema Assoc AssocSpec Reader ReaderSpec XmlWriter XmlSpec XmlCalls.
From Verif Require Import EscapeFacts XmlWriterFacts XmlParseFacts XmlDocFacts XmlFlatFacts.
From Verif Require Import WriteSpec CimWriter WriteFacts.

Definition good_name (s : pystr) : bool := is_name s && no_colon s.
Definition pelem_tag (p : pelem) : pystr := match p with PText t _ | PResource t _ => t end.
Definition names_ok (e : entry) : Prop :=
  good_name (en_class e) = true ∧ ∀ p, p ∈ en_props e → good_name (pelem_tag p) = true.

Section doc.
Context (nsURI : pystr).
Notation cim := (ns_cim nsURI).
Notation pre := (u "cim").
Notation pelem_call := (pelem_call pre).
Notation entry_call := (entry_call pre).
Notation root_call := (root_call nsURI pre).

Lemma is_name_pre s : is_name s = true → is_name (pre ++ u ":" ++ s) = true.
Proof.
  intros (c & r & -> & Hc & Hr)%is_name_inv. change (forallb name_char (u "im:" ++ c :: r) = true).
  rewrite forallb_app. apply andb_true_iff. split; [done|]. apply forallb_forall. intros x Hx. by apply Hr, elem_of_list_In.
Qed.
Lemma good_is_name s : good_name s = true → is_name s = true.
Proof. unfold good_name. rewrite andb_true_iff. tauto. Qed.
Lemma attrs_named_1 k v : is_name k = true → attrs_named [(k, v)].
Proof. intros Hk. split; [cbn; apply NoDup_singleton|]. by intros k' v' [= -> ->]%elem_of_list_singleton. Qed.
Lemma pelem_elems p : good_name (pelem_tag p) = true → elems (pelem_call p).
Proof.
  intros H%good_is_name%is_name_pre. destruct p; cbn [WriteFacts.pelem_call elems pelem_tag] in *.
  - split; [done|]. split; [constructor|by intros ? ? ?%elem_of_nil].
  - split; [done|]. by apply attrs_named_1.
Qed.
Lemma all_elems_map {A} (f : A → call) l : (∀ x, x ∈ l → elems (f x)) → all_elems (map f l).
Proof. induction l as [|x l IH]; intros H; [done|]. split; [apply H; left|]. apply IH. intros ? ?. apply H. by right. Qed.
Lemma entry_elems e : names_ok e → elems (entry_call e).
Proof.
  intros [Hc Hp]. split; [by apply is_name_pre, good_is_name|]. split; [by apply attrs_named_1|].
  apply all_elems_map. intros p Hin. by apply pelem_elems, Hp.
Qed.
Lemma root_elems es : (∀ e, e ∈ es → names_ok e) → elems (root_call es).
Proof.
  intros H. split; [done|]. split.
  - split; [apply NoDup_cons; split; [by intros [=]%elem_of_list_singleton|apply NoDup_singleton]|].
    intros k v [[= -> ->]|[= -> ->]%elem_of_list_singleton]%elem_of_cons; done.
  - apply all_elems_map. intros e He. by apply entry_elems, H.
Qed.
Lemma strings_mjoin {A} (f : A → call) l s : s ∈ mjoin (map strings (map f l)) ↔ ∃ x, x ∈ l ∧ s ∈ strings (f x).
Proof.
  induction l as [|x l IH].
  - split; [by intros ?%elem_of_nil|]. by intros (? & ?%elem_of_nil & _).
  - cbn [map]. rewrite mjoin_cons', elem_of_app, IH. split.
    + intros [?|(y & ? & ?)]; [exists x; split; [left|done]|exists y; split; [by right|done]].
    + intros (y & [->|?]%elem_of_cons & ?); eauto.
Qed.
Lemma root_strings es : forallb xml_char nsURI = true → (xmls (strings (root_call es)) ↔ ∀ e, e ∈ es → chars_ok xml_char xml_char e).
Proof.
  intros Hu. cbn [WriteFacts.root_call strings]. rewrite xmls_app. split.
  - intros [_ H] e He.
    assert (∀ s, s ∈ strings (entry_call e) → forallb xml_char s = true) as Hs.
    { intros s Hs. apply H, strings_mjoin. eauto. }
    cbn [WriteFacts.entry_call strings] in Hs. split; [apply Hs, elem_of_app; left; left|].
    intros p Hp. assert (∀ s, s ∈ strings (pelem_call p) → forallb xml_char s = true) as Hps.
    { intros s Hin. apply Hs, elem_of_app. right. apply strings_mjoin. eauto. }
    destruct p; apply Hps; cbn; left.
  - intros H. split.
    + intros s [->|[->|?%elem_of_nil]%elem_of_cons]%elem_of_cons; [done| |done]. cbn [snd]. unfold ns_cim. case_bool_decide; [done|].
      rewrite forallb_app, Hu. done.
    + intros s (e & He & Hs)%strings_mjoin. destruct (H e He) as [Hi Hp]. cbn [WriteFacts.entry_call strings] in Hs.
      apply elem_of_app in Hs as [->%elem_of_list_singleton|(p & Hin & Hs)%strings_mjoin]; [done|].
      apply Hp in Hin. destruct p; cbn in Hs; [apply elem_of_list_singleton in Hs as ->; done|].
      apply elem_of_cons in Hs as [->|Hs]; [done|]. apply elem_of_list_singleton in Hs as ->. done.
Qed.

(** *** Names *)
Lemma split_colon_pre p s : ∀ acc, 58%N ∉ p → split_colon acc (p ++ 58%N :: s) = Some (reverse acc ++ p, s).
Proof.
  induction p as [|c p IH]; intros acc H; cbn [app split_colon].
  - by rewrite N.eqb_refl, app_nil_r.
  - apply not_elem_of_cons in H as [Hc H]. rewrite (proj2 (N.eqb_neq c 58)) by congruence. rewrite IH by done.
    by rewrite reverse_cons, <- app_assoc.
Qed.
Lemma qname_cim s : good_name s = true → qname (pre ++ u ":" ++ s) = Some (pre, s).
Proof.
  unfold good_name. rewrite andb_true_iff. intros [Hn Hc]. unfold qname. change (u ":" ++ s) with (58%N :: s).
  rewrite split_colon_pre by (intros Hin; repeat apply elem_of_cons in Hin as [?|Hin]; try done; by apply elem_of_nil in Hin).
  change (reverse [] ++ pre) with pre. by rewrite Hn, Hc.
Qed.
Notation env := [(pre, cim); (u "rdf", rdf_uri); (u "xml", xml_uri)].
Lemma cim_ne : cim ≠ [].
Proof. unfold ns_cim. case_bool_decide; [by destruct nsURI|]. by destruct nsURI. Qed.
Lemma expanded_ne uri l : uri ≠ [] → expanded uri l = u "{" ++ uri ++ u "}" ++ l.
Proof. by destruct uri. Qed.
Lemma expand_tag_cim s : good_name s = true → expand_tag env (pre ++ u ":" ++ s) = Some (cim_name cim s).
Proof.
  intros H. unfold expand_tag. rewrite qname_cim by done. cbn [mbind option_bind fst snd].
  change (ns_lookup pre env) with (Some cim). unfold cim_name. by rewrite expanded_ne by apply cim_ne.
Qed.
Lemma resolve_pelem p : good_name (pelem_tag p) = true →
  resolve env (flat_node (eol_call (pelem_call p))) = Some (pelem_tree cim rdf_uri (norm_pelem p)).
Proof.
  intros H. destruct p as [t s|t s]; cbn [pelem_tag] in H; cbn [WriteFacts.pelem_call eol_call flat_node map fmap option_fmap option_map].
  - change (sort_attrs []) with (@nil (pystr * pystr)). cbn [map resolve ns_decls mbind option_bind app]. rewrite expand_tag_cim by done.
    cbn [mbind option_bind expand_attrs norm_pelem pelem_tree]. by destruct (norm_eol s).
  - change (sort_attrs [eol_attr (u "rdf:resource", s)]) with [(u "rdf:resource", norm_eol s)]. cbn [map]. unfold norm_attr. cbn [fst snd].
    change (map attr_norm (norm_eol s)) with (seen_attr s). cbn [resolve].
    change (ns_decls [(u "rdf:resource", seen_attr s)]) with (Some (@nil (pystr * pystr))). cbn [mbind option_bind app].
    rewrite expand_tag_cim by done. cbn [mbind option_bind].
    change (expand_attrs env [(u "rdf:resource", seen_attr s)]) with (Some [(rdf_name rdf_uri "resource", seen_attr s)]). done.
Qed.
Lemma resolve_kids {A} (f : A → node) (g : A → xnode) e l : (∀ x, x ∈ l → resolve e (f x) = Some (g x)) →
  (fix go (l : list node) : option (list xnode) :=
     match l with
     | [] => Some []
     | n :: r => x ← resolve e n; xs ← go r; Some (x :: xs)
     end) (map f l) = Some (map g l).
Proof.
  induction l as [|x l IH]; intros H; [done|]. cbn [map]. rewrite (H x ltac:(left)). cbn [mbind option_bind].
  rewrite IH; [done|]. intros ? ?. apply H. by right.
Qed.
Lemma resolve_entry e : names_ok e →
  resolve env (flat_node (eol_call (entry_call e))) = Some (entry_tree cim rdf_uri (norm_entry e)).
Proof.
  intros [Hc Hp]. cbn [WriteFacts.entry_call eol_call flat_node map].
  change (sort_attrs [eol_attr (u "rdf:ID", en_id e)]) with [(u "rdf:ID", norm_eol (en_id e))]. cbn [map]. unfold norm_attr. cbn [fst snd].
  change (map attr_norm (norm_eol (en_id e))) with (seen_attr (en_id e)). cbn [resolve].
  change (ns_decls [(u "rdf:ID", seen_attr (en_id e))]) with (Some (@nil (pystr * pystr))). cbn [mbind option_bind app].
  rewrite expand_tag_cim by done. cbn [mbind option_bind].
  change (expand_attrs env [(u "rdf:ID", seen_attr (en_id e))]) with (Some [(rdf_name rdf_uri "ID", seen_attr (en_id e))]). cbn [mbind option_bind].
  rewrite !map_map. rewrite (resolve_kids _ (λ p, pelem_tree cim rdf_uri (norm_pelem p))).
  2:{ intros p Hin. by apply resolve_pelem, Hp. }
  cbn [mbind option_bind]. unfold entry_tree, norm_entry. cbn [en_class en_id en_props]. by rewrite map_map.
Qed.
Lemma attr_norm_uri s : forallb attr_char s = true → seen_attr s = s.
Proof. intros H. unfold seen_attr. rewrite norm_eol_id by (by apply attr_no_cr). by apply attr_norm_id. Qed.
Definition decls : nsenv := [(pre, cim); (u "rdf", rdf_uri)].
Lemma root_decls v e : v ≠ [] → ns_decls [(u "xmlns:cim", v); (u "xmlns:rdf", rdf_uri)] = Some [(pre, v); (u "rdf", rdf_uri)] ∧
  expand_attrs e [(u "xmlns:cim", v); (u "xmlns:rdf", rdf_uri)] = Some [].
Proof. destruct v as [|c v]; [done|]. intros _. split; reflexivity. Qed.
Lemma resolve_root es : forallb attr_char nsURI = true → (∀ e, e ∈ es → names_ok e) →
  resolve [(u "xml", xml_uri)] (flat_node (eol_call (root_call es))) = Some (doc_tree cim rdf_uri decls (map norm_entry es)).
Proof.
  intros Hu H. cbn [WriteFacts.root_call eol_call flat_node map].
  change (sort_attrs [eol_attr (u "xmlns:rdf", rdf_uri); eol_attr (u "xmlns:" ++ pre, cim)])
    with [eol_attr (u "xmlns:cim", cim); eol_attr (u "xmlns:rdf", rdf_uri)]. cbn [map]. unfold norm_attr, eol_attr. cbn [fst snd].
  change (map attr_norm (norm_eol rdf_uri)) with rdf_uri. change (map attr_norm (norm_eol cim)) with (seen_attr cim). rewrite attr_norm_uri.
  2:{ unfold ns_cim. case_bool_decide; [done|]. by rewrite forallb_app, Hu. }
  cbn [resolve].
  match goal with |- context [ns_decls ?x] => assert (ns_decls x = Some decls) as -> end.
  { exact (proj1 (root_decls cim env cim_ne)). }
  cbn [mbind option_bind].
  change (decls ++ [(u "xml", xml_uri)]) with env.
  change (expand_tag env (u "rdf:RDF")) with (Some (rdf_name rdf_uri "RDF")). cbn [mbind option_bind].
  match goal with |- context [expand_attrs ?e ?x] => assert (expand_attrs e x = Some []) as -> end.
  { exact (proj2 (root_decls cim env cim_ne)). }
  cbn [mbind option_bind]. rewrite !map_map. rewrite (resolve_kids _ (λ e, entry_tree cim rdf_uri (norm_entry e))).
  2:{ intros e He. by apply resolve_entry, H. }
  cbn [mbind option_bind]. unfold doc_tree. by rewrite map_map.
Qed.

(** *** Documents *)
Lemma written_doc enc es : forallb attr_char nsURI = true → enc_ok enc → (∀ e, e ∈ es → names_ok e) →
  ∃ w, document true enc (root_call es) = (inl tt, w) ∧ w_tags w = [] ∧
    ((∀ e, e ∈ es → chars_ok xml_char xml_char e) → parse_ns (w_out w) = Some (doc_tree cim rdf_uri decls (map norm_entry es))) ∧
    (∀ n, parse (w_out w) = Some n → ∀ e, e ∈ es → chars_ok xml_char xml_char e).
Proof.
  intros Hu Henc H. destruct (parse_flat enc (root_call es) eq_refl (root_elems es H) Henc) as (w & E & G & P1 & P2).
  pose proof (root_strings es (attr_char_xml _ Hu)) as Hrs. exists w. split_and!; [done|done| |].
  - intros Hx. unfold parse_ns. rewrite P1 by (by apply Hrs). cbn [mbind option_bind]. by apply resolve_root.
  - intros n Hn. by eapply Hrs, P2.
Qed.
Lemma norm_entry_id e : chars_ok data_char attr_char e → norm_entry e = e.
Proof.
  intros [Hi Hp]. unfold norm_entry. rewrite attr_norm_uri by done. destruct e as [c i ps]. cbn [en_class en_id en_props] in *. f_equal.
  rewrite <- (map_id ps) at 2. apply map_ext_in. intros p Hin%elem_of_list_In. apply Hp in Hin. destruct p; cbn [norm_pelem]; f_equal.
  - by apply norm_eol_id, data_no_cr.
  - by apply attr_norm_uri.
Qed.
Lemma chars_ok_xml e : chars_ok data_char attr_char e → chars_ok xml_char xml_char e.
Proof.
  intros [Hi Hp]. split; [by apply attr_char_xml|]. intros p Hin. apply Hp in Hin. destruct p; [by apply data_char_xml|by apply attr_char_xml].
Qed.
End doc.
