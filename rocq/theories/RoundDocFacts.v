(** A document of cimwrite as the reader sees it: its events, the objects it
    declares and its statements. *)
From Coq Require Import String ZArith Lia.
From stdpp Require Import prelude gmap.
From Verif Require Import PyStr PyHeap Schema Assoc AssocSpec HeapFacts LinksFacts AssocFacts CtorFacts HistorySpec Names
  TabCIM14 TabCIM15 TabProfiles Tables TableSpec TableFacts BlankFacts Reader ReaderSpec ReaderFacts CreateFacts StatementFacts ReadStepFacts ReadDocFacts.
From Verif Require Import XmlSpec WriteSpec.

Section doc.
Context (cim rdf : pystr).
Notation base := (u "{" ++ cim ++ u "}").

Definition text_opt (s : pystr) : option pystr := match s with [] => None | _ => Some s end.
Definition pel_of (p : pelem) : pel :=
  match p with
  | PText tag s => Pel tag [] (text_opt s)
  | PResource tag uri => Pel tag [(rdf_name rdf "resource", uri)] None
  end.
Definition item_of (e : entry) : item := Item (en_class e) [(rdf_name rdf "ID", en_id e)] None (map pel_of (en_props e)).
Definition root_elem : elem := Elem (rdf_name rdf "RDF") [] None true.

Lemma base_app n : cim_name cim n = base ++ n.
Proof. unfold cim_name. by rewrite <- !app_assoc. Qed.
Lemma xevents_pelem p : xevents false (pelem_tree cim rdf p) = pel_events base (pel_of p).
Proof.
  destruct p as [tag s|tag uri]; unfold pel_events, pel_elem; cbn [pelem_tree xevents map app flat_map pel_of p_tag p_attrs p_text];
    rewrite base_app; [|done].
  destruct s as [|c s]; done.
Qed.
Lemma text_before_elems {A} (f : A → xnode) l : (∀ x, ∃ a b c d, f x = XElem a b c d) → text_before (map f l) = None.
Proof. intros H. destruct l as [|x l]; [done|]. cbn [map text_before]. destruct (H x) as (a & b & c & e & ->). done. Qed.
Lemma flat_map_map {A B C} (f : A → B) (g : B → list C) l : flat_map g (map f l) = flat_map (λ x, g (f x)) l.
Proof. induction l as [|x l IH]; [done|]. cbn [map flat_map]. by rewrite IH. Qed.
Lemma flat_map_ext' {A C} (f g : A → list C) l : (∀ x, f x = g x) → flat_map f l = flat_map g l.
Proof. intros H. induction l as [|x l IH]; [done|]. cbn [flat_map]. by rewrite IH, H. Qed.
Lemma pelem_tree_elem p : ∃ a b c d, pelem_tree cim rdf p = XElem a b c d.
Proof. destruct p; cbn; eauto. Qed.
Lemma xevents_entry e : xevents false (entry_tree cim rdf e) = item_events base (item_of e).
Proof.
  unfold item_events, item_elem. cbn [entry_tree xevents map app item_of i_tag i_attrs i_text i_props].
  rewrite base_app, (text_before_elems _ _ pelem_tree_elem), !flat_map_map. do 2 f_equal.
  apply flat_map_ext', xevents_pelem.
Qed.
Lemma doc_events decls es : xevents true (doc_tree cim rdf decls es) =
  map (λ d, ENs d.1 d.2) decls ++ EStart root_elem :: flat base (map item_of es) ++ [EEnd root_elem].
Proof.
  unfold flat, doc_tree. cbn [xevents]. rewrite text_before_elems by (unfold entry_tree; eauto).
  rewrite !flat_map_map. rewrite (flat_map_ext' _ _ es xevents_entry). done.
Qed.

(** Attributes. *)
Lemma rdf_attr_here n v r : rdf_attr rdf n ((rdf_name rdf n, v) :: r) = Some v.
Proof. unfold rdf_attr. cbn [assoc]. unfold rdf_name. by rewrite str_eqb_refl. Qed.
Lemma rdf_attr_other n m v r : u n ≠ u m → rdf_attr rdf n ((rdf_name rdf m, v) :: r) = rdf_attr rdf n r.
Proof.
  intros Hne. unfold rdf_attr. cbn [assoc]. unfold rdf_name.
  rewrite (proj2 (str_eqb_neq _ _)); [done|]. intros E. apply Hne. by repeat apply app_inv_head in E.
Qed.
Lemma rdf_attr_nil n : rdf_attr rdf n [] = None.
Proof. done. Qed.
Lemma pel_no_id p : rdf_attr rdf "ID" (p_attrs (pel_of p)) = None ∧ rdf_attr rdf "about" (p_attrs (pel_of p)) = None.
Proof. destruct p; cbn [pel_of p_attrs]; [done|]. by rewrite !rdf_attr_other. Qed.
Lemma item_uuid e : uuid_of rdf (i_attrs (item_of e)) = Some (en_id e).
Proof. unfold uuid_of. cbn [item_of i_attrs]. by rewrite rdf_attr_here. Qed.
Lemma item_flat_ok e : flat_ok base rdf (item_of e).
Proof.
  split; [rewrite item_uuid; by eexists|]. intros p (p' & -> & _)%elem_of_list_fmap. apply pel_no_id.
Qed.

(** The objects. *)
Lemma omap_nil_iff {A B} (f : A → option B) l : (∀ x, x ∈ l → f x = None) → omap f l = [].
Proof. induction l as [|x l IH]; intros H; [done|]. cbn. rewrite (H x) by left. apply IH. intros ? ?. apply H. by right. Qed.
Lemma declared_item pm i rest id : flat_ok base rdf i → uuid_of rdf (i_attrs i) = Some id →
  declared base rdf pm (item_events base i ++ rest) =
  match assoc (i_tag i) pm with Some k => [(id, k)] | None => [] end ++ declared base rdf pm rest.
Proof.
  intros Hok Hid. unfold declared, item_events. rewrite omap_app. f_equal. cbn [omap list_omap]. rewrite omap_app, omap_nil_iff.
  - cbn [app omap list_omap]. rewrite item_base. cbn [item_elem e_attrs]. rewrite Hid. cbn [mbind option_bind].
    rewrite item_local. by destruct (assoc (i_tag i) pm).
  - intros ev (p & Hp & Hev)%elem_of_list_In%in_flat_map. apply elem_of_list_In in Hp. destruct Hev as [<-|[<-|[]]]; [done|].
    rewrite pel_base. cbn [pel_elem e_attrs]. unfold uuid_of. destruct (proj2 Hok p Hp) as [-> ->]. done.
Qed.
Lemma declared_flat pm es rest :
  declared base rdf pm (flat base (map item_of es) ++ rest) =
  flat_map (λ e, match assoc (en_class e) pm with Some k => [(en_id e, k)] | None => [] end) es ++ declared base rdf pm rest.
Proof.
  unfold flat. induction es as [|e es IH]; [done|]. cbn [map flat_map]. rewrite <- !app_assoc.
  rewrite (declared_item _ _ _ (en_id e) (item_flat_ok e) (item_uuid e)), IH. done.
Qed.
Lemma declared_root pm root : in_base base root = false → declared base rdf pm [EEnd root] = [].
Proof. unfold declared. intros E. cbn [omap list_omap]. by rewrite E. Qed.
Lemma declared_known (pm : list (name * name)) (ck : entry → name) es : (∀ e, e ∈ es → assoc (en_class e) pm = Some (ck e)) →
  flat_map (λ e, match assoc (en_class e) pm with Some k => [(en_id e, k)] | None => [] end) es = map (λ e, (en_id e, ck e)) es.
Proof.
  induction es as [|e es IH]; intros H; [done|]. cbn [flat_map map]. rewrite (H e) by left. cbn [app]. f_equal. apply IH.
  intros ? ?. apply H. by right.
Qed.

(** The statements. *)
Lemma statements_doc k es root : in_base base root = false → (∀ e, e ∈ es → k (en_id e) = true) →
  statements base rdf k None (flat base (map item_of es) ++ [EEnd root]) =
  flat_map (λ e, map (λ p, (en_id e, pel_elem base (pel_of p))) (en_props e)) es.
Proof.
  intros Hr. unfold flat. induction es as [|e es IH]; intros H; [done|].
  cbn [map flat_map]. rewrite <- app_assoc. rewrite (statements_item _ _ _ _ (en_id e) _ (item_flat_ok e) (item_uuid e)).
  rewrite (H e) by left. rewrite IH by (intros ? ?; apply H; by right). f_equal. cbn [item_of i_props]. by rewrite map_map.
Qed.
End doc.

(** The first pass returns when all classes can be constructed. *)
Lemma pass1_returns S pm f base rdf evs : makes S pm → foreign_root base evs →
  (∀ id k, (id, k) ∈ declared base rdf pm evs → is_Some (blank_new S k [] (uuid_kw id))) →
  ∀ c d h, Wf h → ∃ d' h', pass1 S pm (Datatypes.S f) base rdf false evs c d h = (None, d', h').
Proof.
  intros Hm. induction evs as [|ev evs IH]; intros Hf Hdc c d h Hwf; [by eexists _, _|].
  assert (foreign_root base evs) as Hf' by (intros e He; apply Hf; destruct He; [left|right]; by right).
  destruct ev as [e|e|p v]; cbn [pass1].
  - cbn [pass1_step]. unfold ret. apply IH; [done|done|done].
  - unfold pass1_step. destruct (in_base base e) eqn:Eb.
    2:{ unfold ret. apply IH; [done| |done]. intros id k Hin. apply Hdc. unfold declared in *. cbn [omap list_omap]. by rewrite Eb. }
    assert (e_root e = false) as ->.
    { destruct (e_root e) eqn:Er; [|done]. rewrite (Hf e) in Eb; [done|right; left|done]. }
    cbn [andb]. destruct (uuid_of rdf (e_attrs e)) as [id|] eqn:Eu.
    2:{ unfold ret. apply IH; [done| |done]. intros id k Hin. apply Hdc. unfold declared in *. cbn [omap list_omap]. by rewrite Eb, Eu. }
    destruct (assoc (local base e) pm) as [k|] eqn:Ek.
    2:{ unfold ret. apply IH; [done| |done]. intros id' k Hin. apply Hdc. unfold declared in *. cbn [omap list_omap]. rewrite Eb, Eu.
        cbn [mbind option_bind]. by rewrite Ek. }
    assert (declared base rdf pm (EEnd e :: evs) = (id, k) :: declared base rdf pm evs) as Ed.
    { unfold declared. cbn [omap list_omap]. rewrite Eb, Eu. cbn [mbind option_bind]. by rewrite Ek. }
    rewrite Ed in Hdc. destruct (Hdc id k) as [ws Hws]; [left|].
    destruct (construct_blank S f h k [] _ _ Hwf Hws) as (h1 & E1 & Hwf1 & _). fold (uuid_kw id). unfold bind. rewrite E1. unfold ret.
    apply IH; [done| |done]. intros id' k' Hin. apply Hdc. by right.
  - apply IH; [done| |done]. exact Hdc.
Qed.

(** The whole call of the reader. *)
Lemma xmlns_quiet evs m : (∀ p v, ENs p v ∉ evs) → xmlns_from false evs m = inl m.
Proof.
  revert m. induction evs as [|ev evs IH]; intros m H; [done|]. destruct ev as [e|e|p v]; cbn [xmlns_from]; [|done|].
  - apply IH. intros p v Hin. apply (H p v). by right.
  - exfalso. apply (H p v). left.
Qed.
Lemma flat_quiet base items root p v : ENs p v ∉ flat base items ++ [EEnd root].
Proof.
  rewrite elem_of_app. intros [Hin|[=]%elem_of_list_singleton].
  apply elem_of_list_In, in_flat_map in Hin as (i & _ & Hin). apply elem_of_list_In in Hin. unfold item_events in Hin.
  apply elem_of_cons in Hin as [[=]|Hin]. apply elem_of_app in Hin as [Hin|[=]%elem_of_list_singleton].
  apply elem_of_list_In, in_flat_map in Hin as (q & _ & Hin). apply elem_of_list_In in Hin. unfold pel_events in Hin.
  apply elem_of_cons in Hin as [[=]|[=]%elem_of_list_singleton].
Qed.
