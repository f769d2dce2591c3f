(** Exporting a model as several files and reading them one after the other. *)
From Coq Require Import String ZArith Lia.
From stdpp Require Import prelude gmap.
From Verif Require Import PyStr PyHeap Schema Assoc AssocSpec HeapFacts LinksFacts AssocFacts CtorFacts HistorySpec Names
  TabCIM14 TabCIM15 TabProfiles Tables TableSpec TableFacts BlankFacts Reader ReaderSpec ReaderFacts CreateFacts StatementFacts ReadStepFacts ReadDocFacts.
From Verif Require Import XmlSpec WriteSpec WriteFacts RoundSpec RoundTables RoundDocFacts RoundFacts RoundMain DocSpec DocFacts HistoryFacts ReaderTabs RefFacts MemberSpec ExportDocFacts.
From Verif Require Import PartsSpec PartsFacts FilesSpec PropParts.
From Verif Require PropReader.

Lemma Portable_sub t pm pf h d d1 : Portable t pm pf h d → NoDup (map fst d1) → (∀ x, x ∈ d1 → x ∈ d) → Portable t pm pf h d1.
Proof.
  intros HP Hn Hs. split.
  - apply HP.
  - done.
  - intros id v Hin. by apply (po_ids _ _ _ _ _ HP), Hs.
  - intros id o Hin. apply (po_class _ _ _ _ _ HP id), Hs, Hin.
  - intros id o ck c a v Hin. apply (po_attrs _ _ _ _ _ HP id), Hs, Hin.
  - intros id o ck c p x Hin Hck Hc Hp Hm Hx. destruct (po_refs _ _ _ _ _ HP id o ck c p x (Hs _ Hin) Hck Hc Hp Hm Hx) as (i & Hi & Hch & Hout).
    exists i. split_and!; [done|done|]. intros v Hv. apply Hout. apply assoc_NoDup; [apply HP|]. by apply Hs, assoc_in.
Qed.

(** The root element does not matter. *)
Lemma reads_root base rdf S pm fuel pf items root root' d h : in_base base root = false → in_base base root' = false →
  reads base rdf S pm fuel pf false root (flat base items ++ [EEnd root]) d h = reads base rdf S pm fuel pf false root' (flat base items ++ [EEnd root']) d h.
Proof.
  intros H1 H2. rewrite !reads_exec, !(pass1_app base rdf S pm fuel).
  destruct (pass1 _ _ _ _ _ false (flat base items) false d h) as [[[x|] d1] h1]; [done|].
  assert (∀ r c, in_base base r = false → pass1 S pm fuel base rdf false [EEnd r] c d1 h1 = (None, d1, h1)) as Hr.
  { intros r c Hr. cbn [Reader.pass1]. unfold pass1_step. by rewrite Hr. }
  rewrite !Hr by done. rewrite !(statements_app base rdf).
  assert (∀ r k cur, in_base base r = false → statements base rdf k cur [EEnd r] = []) as Hs.
  { intros r k cur Hb. cbn [ReaderSpec.statements]. by destruct cur; rewrite ?Hb. }
  by rewrite !Hs.
Qed.

Lemma writes_concat t fint cim h ds ess : Forall2 (Writes_all t fint cim h) ds ess → Writes_all t fint cim h (concat ds) (concat ess).
Proof. induction 1 as [|d es ds ess Hd Hr IH]; [constructor|]. cbn [concat]. by apply Forall2_app. Qed.

(** Cutting. *)
Lemma concat_snoc {A} (l : list (list A)) p : concat (l ++ [p]) = concat l ++ p.
Proof. rewrite concat_app. cbn [concat]. by rewrite app_nil_r. Qed.
Lemma concat_upto {A} (l : list (list A)) p r : concat (l ++ p :: r) = concat (l ++ [p]) ++ concat r.
Proof. by rewrite concat_snoc, concat_mid, app_assoc. Qed.
Lemma files_cut t fint cim h rdf ds ess l part r : Forall2 (Writes_all t fint cim h) ds ess → map (map (item_of rdf)) ess = l ++ part :: r →
  ∃ dl d dr el e er, ds = dl ++ d :: dr ∧ ess = el ++ e :: er ∧
  l = map (map (item_of rdf)) el ∧ part = map (item_of rdf) e ∧ Forall2 (Writes_all t fint cim h) dl el ∧ Writes_all t fint cim h d e.
Proof.
  intros Hess E. apply map_eq_app in E as (el & er' & -> & <- & E2). destruct er' as [|e er]; [done|]. cbn [map] in E2. injection E2 as <- <-.
  apply Forall2_app_inv_r in Hess as (dl & dr' & H1 & H2 & ->). inversion H2 as [|d ? dr ? H3 H4]; subst.
  by exists dl, d, dr, el, e, er.
Qed.

Lemma add_keys_app a b : ∀ ks, add_keys ks (a ++ b) = add_keys (add_keys ks a) b.
Proof. induction a as [|k a IH]; intros ks; [done|]. cbn [app add_keys]. apply IH. Qed.
Section keys.
Context (t : schema) (pm : list (name * name)) (Ht : (t, pm) ∈ tables) (base rdf : pystr) (f : nat) (pf : pystr → option pystr) (all : list (list item)).
Notation F := (Datatypes.S (Datatypes.S f)).
Notation CL := (PartsSpec.class_of base rdf pm (concat all)).
Notation TOLD := (PartsSpec.told base rdf pm (concat all)).
Context (Hok : Forall (flat_ok base rdf) (concat all)) (Hdist : distinct_ids rdf (concat all)) (Hturn : in_turn base rdf pm t all).
Context (Hcomp : ∀ id e, (id, e) ∈ TOLD → ∃ ck, CL id = Some ck ∧ compatible base rdf t CL ck e) (Hag : agreeing base rdf t CL TOLD).
Context (Hpl : ∀ id k a e r, CL id = Some k → plain_attr t k a → e ∈ mine base id a TOLD → resource rdf e = Some r → has_prefix (u "#") r = false).
Lemma declared_root items root : in_base base root = false → declared base rdf pm (flat base items ++ [EEnd root]) = declared base rdf pm (flat base items).
Proof using Type. intros Hr. rewrite declared_app. unfold declared at 2. cbn [omap list_omap]. by rewrite Hr, app_nil_r. Qed.
Lemma parts_keys rest : ∀ l d h d' h', all = l ++ rest →
  Made t base rdf pf (PartsSpec.class_of base rdf pm (concat l)) (PartsSpec.told base rdf pm (concat l)) d h →
  reads_parts base rdf pm t F pf rest d h d' h' →
  map fst d' = add_keys (map fst d) (map fst (declared base rdf pm (flat base (concat rest)))).
Proof using All.
  induction rest as [|part rest IH]; intros l d h d' h' Hall HM Hr; [by inversion Hr; subst d' h'|].
  revert Hall. inversion Hr as [|root items rest' d0 h0 d1 h1 d2 h2 Hroot H1 H2]; subst. intros Hall.
  rewrite (IH (l ++ [part]) d1 h1 d' h'); [|by rewrite Hall, <- app_assoc| |done].
  - destruct (PropReader.C24_keys t pm base rdf _ pf _ root _ d h d1 h1 Ht (proj1 (so_consistent _ _ (md_sound _ _ _ _ _ _ _ _ HM)))
      (flat_foreign base root part Hroot) H1) as [-> _].
    rewrite declared_root by done. cbn [concat]. by rewrite (flat_app base part), declared_app, map_app, add_keys_app.
  - by eapply (one_read t pm Ht base rdf f pf all Hok Hdist Hturn Hcomp Hag Hpl l part rest Hall root Hroot d h false d1 h1).
Qed.
End keys.

Section main.
Context (t : schema) (pm : list (name * name)) (Ht : (t, pm) ∈ tables) (pf : pystr → option pystr) (fint : pystr → option Z).
Context (h : heap) (ds : list dict) (HP : Portable t pm pf h (concat ds)) (cim rdf : pystr) (ess : list (list entry)).
Context (Hess : Forall2 (Writes_all t fint cim h) ds ess).
Notation base := (u "{" ++ cim ++ u "}").
Context (Hcim : ∃ c r, cim = c :: r ∧ c ≠ 35%N) (Hroot : in_base base (root_elem rdf) = false).
Notation D := (concat ds).
Notation es := (concat ess).
Notation parts := (map (map (item_of rdf)) ess).
Notation evs := (flat base (map (item_of rdf) es) ++ [EEnd (root_elem rdf)]).
Lemma files_all : Writes_all t fint cim h D es.
Proof using Hess. by apply writes_concat. Qed.
Lemma files_parts : concat parts = map (item_of rdf) es.
Proof using Type. clear. induction ess as [|e l IH]; [done|]. cbn [map concat]. by rewrite IH, map_app. Qed.
Lemma files_ok : Forall (flat_ok base rdf) (concat parts).
Proof using Type. rewrite files_parts. apply Forall_forall. intros i (e & -> & _)%elem_of_list_fmap. apply item_flat_ok. Qed.
Lemma omap_ids l : omap (λ i, uuid_of rdf (i_attrs i)) (map (item_of rdf) l) = map en_id l.
Proof using Type. induction l as [|e l IH]; [done|]. cbn [map omap list_omap]. rewrite item_uuid. by rewrite IH. Qed.
Lemma files_distinct : distinct_ids rdf (concat parts).
Proof using HP Hess.
  unfold distinct_ids. rewrite files_parts, omap_ids. rewrite (entry_ids t pm pf fint h D HP cim es files_all). apply HP.
Qed.
Lemma sub_prefix dl d dr : ds = dl ++ d :: dr → Portable t pm pf h (concat (dl ++ [d])) ∧ Portable t pm pf h d ∧
  (∀ id v, assoc id d = Some v → assoc id D = Some v) ∧ (∀ id v, assoc id (concat (dl ++ [d])) = Some v → assoc id D = Some v).
Proof using HP.
  intros E. assert (D = concat (dl ++ [d]) ++ concat dr) as E1.
  { rewrite E. apply concat_upto. }
  assert (concat (dl ++ [d]) = concat dl ++ d) as E2 by apply concat_snoc.
  pose proof (po_keys _ _ _ _ _ HP) as Hn. rewrite E1, E2, map_app in Hn. apply NoDup_app in Hn as (Hn1 & _ & _).
  assert (NoDup (map fst d)) as Hn2 by (rewrite map_app in Hn1; by apply NoDup_app in Hn1 as (_ & _ & ?)).
  assert (∀ x, x ∈ d → x ∈ concat (dl ++ [d])) as Hs2 by (intros x Hx; rewrite E2; apply elem_of_app; by right).
  assert (∀ x, x ∈ concat (dl ++ [d]) → x ∈ D) as Hs1 by (intros x Hx; rewrite E1; apply elem_of_app; by left).
  split_and!.
  - apply (Portable_sub _ _ _ _ D); [done|by rewrite E2|done].
  - apply (Portable_sub _ _ _ _ D); [done|done|by auto].
  - intros id v Hv%assoc_in. apply assoc_NoDup; [apply HP|]. auto.
  - intros id v Hv%assoc_in. apply assoc_NoDup; [apply HP|]. auto.
Qed.
Lemma class_items d0 e0 id : Portable t pm pf h d0 → Writes_all t fint cim h d0 e0 → is_Some (assoc id d0) →
  is_Some (PartsSpec.class_of base rdf pm (map (item_of rdf) e0) id).
Proof using Hroot.
  intros HP0 He0 [v Hv]. destruct (dict_obj _ _ _ _ _ HP0 _ _ Hv) as (o & c & -> & _ & Hc & _). exists (c_key c).
  rewrite <- (class_root base rdf pm _ (root_elem rdf)) by done. apply (doc_class t pm pf fint h d0 HP0 cim rdf e0 He0 Hroot). eauto.
Qed.
Notation CL := (PartsSpec.class_of base rdf pm (concat parts)).
Notation TOLD := (PartsSpec.told base rdf pm (concat parts)).
Notation sts := (flat_map (λ e, map (λ p, (en_id e, pel_elem base (pel_of rdf p))) (en_props e)) es).
Lemma files_class hr id : class_in base rdf pm evs [] hr id = CL id.
Proof using Hroot. rewrite files_parts. by apply whole_class. Qed.
Lemma files_told : TOLD = sts.
Proof using HP Hess Hroot.
  rewrite files_parts. rewrite <- (all_statements t pm pf fint h D HP cim rdf es files_all Hroot). symmetry.
  pose proof files_ok as H1. pose proof files_distinct as H2. rewrite files_parts in H1, H2.
  by apply whole_told.
Qed.
Lemma lists_id d0 o : Portable t pm pf h d0 → lists d0 o → ∃ id, assoc id d0 = Some (VRef o) ∧ sees t h o (u "UUID") (VStr id).
Proof using Type.
  intros HP0 [id Hin]. exists id. split; [by apply assoc_NoDup; [apply HP0|]|].
  by destruct (po_ids _ _ _ _ _ HP0 _ _ Hin) as (? & [= <-] & Hu & _).
Qed.
Lemma same_id d0 o id : Portable t pm pf h d0 → lists d0 o → assoc id D = Some (VRef o) → assoc id d0 = Some (VRef o).
Proof using HP.
  intros HP0 Hl Hid. destruct (lists_id _ _ HP0 Hl) as (id' & Hid' & Hu').
  destruct (po_ids _ _ _ _ _ HP _ _ (assoc_in _ _ _ Hid)) as (? & [= <-] & Hu & _). by pose proof (sees_det _ _ _ _ _ _ Hu Hu') as [= <-].
Qed.

Context (Hstack : stackable t h ds) (Hends : only_ends t h D).
Lemma files_refers sts0 x a y : sts0 ⊆ sts → refers base rdf CL sts0 x a y → ∃ o o2 ck p k, assoc x D = Some (VRef o) ∧ cls_of h o = Some ck ∧
  assoc y D = Some (VRef o2) ∧ lookup_prop t ck p = Some k ∧ single_kind k = true ∧ view h o (Priv p) = Some (OV (VRef o2)) ∧
  key_of a = Pub a ∧
  match lookup_prop t ck a with Some (POneMany _ | POneOne _) => p = a | Some (PAlias p' _) => p' = p ∧ ∃ q, k = POneMany q | _ => False end.
Proof using HP Hess Hroot Ht Hcim Hends.
  intros Hsub Href. pose proof heap_empty as hr. assert (refers base rdf (class_in base rdf pm evs [] hr) sts x a y) as Href'.
  { eapply refers_mono; [|exact Hsub|exact Href]. intros id k. by rewrite files_class. }
  pose proof Href' as (el & Hin & [(_ & _ & _ & Ha) Hres] & Hy).
  destruct (statement_does t pm Ht pf fint h D HP cim rdf es files_all _ _ Hin) as (e & o & c0 & p & k & He & Hid & Ho & Hck & Hrc & Hp & -> & Hdo).
  assert (class_in base rdf pm evs [] hr x = Some (c_key c0)) as Hx.
  { apply (doc_class_in t pm pf fint h D HP cim rdf es files_all Hroot). eauto. }
  destruct (refers_sees t pm Ht pf fint h D HP cim rdf es files_all Hcim Hroot hr x a y _ Href' Hx) as (o' & o2 & Ho' & Hc & Ho2 & Hv & Hk).
  rewrite Ho in Ho'. injection Ho' as <-. rewrite act_resource in Hres.
  destruct Hdo as [ck c a' v dv s Hcc Hcm Ha' Hne He' Hv' Hdv Hneq Hs|ck c a' v dt s Hcc Hcm Ha' Hne He' Hv' Hs|ck c r z iv s Hcc Hcm Hr Hm Hz Hi Hs];
    rewrite Hck in Hcc; injection Hcc as <-.
  - done.
  - exfalso. destruct Hcim as (c1 & r1 & Ecim & H35). rewrite Ecim in Hres. cbn [app] in Hres. change (u "#" ++ y) with (35%N :: y) in Hres.
    injection Hres as E1 _. by apply H35.
  - rewrite (act_local t pm Ht cim rdf c r _ (mro_sub _ _ _ Hcm) (or_intror Hr)) in Ha by reflexivity. subst r.
    change (u "#" ++ s) with (35%N :: s) in Hres. change (u "#" ++ y) with (35%N :: y) in Hres. injection Hres as ->.
    destruct (po_refs _ _ _ _ _ HP x o _ c a z (assoc_in _ _ _ Ho) Hck Hcm Hr Hm Hz) as (i & Hi' & _ & Hout).
    pose proof (sees_det _ _ _ _ _ _ Hi Hi') as ->. assert (i = y) as -> by (by inversion Hs). specialize (Hout _ Ho2). injection Hout as <-.
    pose proof (Hends o (c_key c0) c a o2 (ex_intro _ x (assoc_in _ _ _ Ho)) Hck Hcm Hr Hm Hz (ex_intro _ y (assoc_in _ _ _ Ho2))) as Hend.
    destruct (round_ref_ok _ _ Hrc c a Hcm Hr Hm) as [Hpub _].
    unfold read_slot in Hv. destruct (lookup_prop t (c_key c0) a) as [[q|q|q|q| |q|p' c']|] eqn:El; try done.
    + exists o, o2, (c_key c0), a, (POneMany q). by rewrite El.
    + exists o, o2, (c_key c0), a, (POneOne q). by rewrite El.
    + destruct Hk as [q Hk]. exists o, o2, (c_key c0), p', (POneMany q). rewrite El. split_and!; try done. by exists q.
Qed.
Lemma files_turn : in_turn base rdf pm t parts.
Proof using HP Hess Hroot Ht Hcim Hends Hstack.
  intros l part r E. destruct (files_cut t fint cim h rdf ds ess l part r Hess E) as (dl & d & dr & el & e & er & Eds & Eess & -> & -> & Hl & Hd).
  destruct (sub_prefix dl d dr Eds) as (HP1 & HP2 & Hup & Hup1).
  assert (Writes_all t fint cim h (concat (dl ++ [d])) (concat (el ++ [e]))) as Hw1.
  { apply writes_concat. apply Forall2_app; [done|]. by constructor. }
  assert (PartsSpec.told base rdf pm (map (item_of rdf) e) ⊆ sts) as Hsub.
  { rewrite <- files_told. rewrite E. rewrite concat_mid, !told_app. intros x Hx. apply elem_of_app. right. apply elem_of_app. by left. }
  assert (∀ x e', (x, e') ∈ PartsSpec.told base rdf pm (map (item_of rdf) e) → is_Some (assoc x d)) as Hmine.
  { intros x e' Hin. apply elem_of_list_In, in_flat_map in Hin as (i & Hi%elem_of_list_In & Hin%elem_of_list_In).
    apply elem_of_list_fmap in Hi as (en & -> & Hen). rewrite item_uuid in Hin. destruct (assoc _ pm) in Hin; [|by apply elem_of_nil in Hin].
    apply elem_of_list_fmap in Hin as (? & [= -> _] & _). destruct (written_entry t pm pf fint h d HP2 cim e Hd en Hen) as (o & _ & Ho & _). by rewrite Ho. }
  assert (∀ x a y, refers base rdf CL (PartsSpec.told base rdf pm (map (item_of rdf) e)) x a y → ∃ o o2 ck p k, assoc x d = Some (VRef o) ∧
    cls_of h o = Some ck ∧ assoc x D = Some (VRef o) ∧ assoc y D = Some (VRef o2) ∧ lookup_prop t ck p = Some k ∧
    match k with POneMany _ => lists (concat (dl ++ [d])) o2 | POneOne _ => lists d o2 | _ => False end ∧
    match lookup_prop t ck a with Some (POneMany _ | POneOne _) => p = a | Some (PAlias p' _) => p' = p ∧ ∃ q, k = POneMany q | _ => False end) as Href.
  { intros x a y H. destruct (files_refers _ x a y Hsub H) as (o & o2 & ck & p & k & Ho & Hc & Ho2 & Hp & Hk & Hv & _ & Ha).
    pose proof H as (e' & Hin & _). destruct (Hmine _ _ Hin) as [v Hv']. pose proof (Hup _ _ Hv') as Hv2. rewrite Ho in Hv2. injection Hv2 as <-.
    exists o, o2, ck, p, k. split_and!; try done.
    assert (pkind t h o p = Some k) as Hpk by (unfold pkind; by rewrite Hc).
    pose proof (Hstack dl d dr o p k o2 Eds (ex_intro _ x (assoc_in _ _ _ Hv')) Hpk Hv (ex_intro _ y (assoc_in _ _ _ Ho2))) as Hs.
    by destruct k. }
  assert (∀ x o ck, assoc x D = Some (VRef o) → cls_of h o = Some ck → CL x = Some ck) as Hcl.
  { intros x o ck Ho Hc. rewrite <- (files_class heap_empty). apply (doc_class_in t pm pf fint h D HP cim rdf es files_all Hroot). eauto. }
  split.
  - intros x a y H. destruct (Href x a y H) as (o & o2 & ck & p & k & Ho & Hc & _ & Ho2 & Hp & Hk & _).
    assert (concat (map (map (item_of rdf)) el ++ [map (item_of rdf) e]) = map (item_of rdf) (concat (el ++ [e]))) as ->.
    { by rewrite concat_map, map_app. }
    apply (class_items (concat (dl ++ [d]))); [done|done|]. exists (VRef o2). apply (same_id _ o2); [done| |done].
    destruct k; try done. destruct Hk as [i Hi]. exists i. apply elem_of_list_In, in_concat. exists d. split; [apply elem_of_list_In, elem_of_app; right; by left|by apply elem_of_list_In].
  - intros x p y H. apply (class_items d); [done|done|].
    destruct H as [x p y ck q Hr Hx Hl'|x a p y ck c Hr Hx Hl'|x p p' y q ck tk Hr Hx Hy Hl' Hm|x p y ck q Hr Hx Hl'|x p y tk q Hr Hy Hl'];
      destruct (Href _ _ _ Hr) as (o & o2 & ck' & p2 & k & Ho & Hc & HoD & Ho2 & Hp & Hk & Ha).
    + by exists (VRef o).
    + by exists (VRef o).
    + exfalso. assert (ck' = tk) as -> by (pose proof (Hcl _ _ _ HoD Hc); congruence). by rewrite Hl' in Ha.
    + by exists (VRef o).
    + assert (ck' = tk) as -> by (pose proof (Hcl _ _ _ HoD Hc); congruence). rewrite Hl' in Ha. subst p2. rewrite Hl' in Hp. injection Hp as <-.
      exists (VRef o2). by apply (same_id _ o2).
Qed.
Lemma files_to_ends hr : refers_to_ends base rdf t pm evs [] hr.
Proof using HP Hess Hroot Ht Hcim Hends.
  intros x a y ck H Hx. rewrite (all_statements t pm pf fint h D HP cim rdf es files_all Hroot) in H.
  assert (refers base rdf CL sts x a y) as H'. { eapply refers_mono; [|reflexivity|exact H]. intros id k. by rewrite files_class. }
  destruct (files_refers sts x a y (λ x H, H) H') as (o & o2 & ck' & p & k & Ho & Hc & _ & _ & _ & _ & Hpub & Ha).
  assert (ck' = ck) as ->.
  { apply (doc_class_in t pm pf fint h D HP cim rdf es files_all Hroot) in Hx as (o' & Ho' & Hc'). rewrite Ho in Ho'. injection Ho' as <-. congruence. }
  split; [done|]. by destruct (lookup_prop t ck a) as [[]|].
Qed.
(** What the two ways of reading have in common. *)
Lemma alike_copy d1 h1 d2 h2 o o' : Copies t h D h1 d1 → alike t CL d1 h1 d2 h2 → copy_of D d2 o o' →
  ∃ id ck o1, assoc id D = Some (VRef o) ∧ assoc id d1 = Some (VRef o1) ∧ assoc id d2 = Some (VRef o') ∧ copy_of D d1 o o1 ∧ cls_of h o = Some ck ∧
    cls_of h1 o1 = Some ck ∧ cls_of h2 o' = Some ck ∧ ck ∉ unconstructible ∧ (∃ c, find_cls t ck = Some c ∧ assoc (c_name c) pm = Some ck) ∧
    (∀ a, plain_attr t ck a → ∃ v, shows t h1 o1 a v ∧ shows t h2 o' a v) ∧
    (∀ p kk, lookup_prop t ck p = Some kk → match kk with POneMany _ | POneOne _ => True | _ => False end →
      ∃ v1 v2, shows t h1 o1 p v1 ∧ shows t h2 o' p v2 ∧ twins d1 d2 v1 v2) ∧
    (∀ p kk, lookup_prop t ck p = Some kk → match kk with PManyOne _ | PManyMany _ => True | _ => False end →
      ∃ ys1 ys2, view h1 o1 (Priv p) = Some (OL ys1) ∧ view h2 o' (Priv p) = Some (OL ys2) ∧
        (∀ v1, v1 ∈ ys1 → ∃ v2, v2 ∈ ys2 ∧ twins d1 d2 v1 v2) ∧ (∀ v2, v2 ∈ ys2 → ∃ v1, v1 ∈ ys1 ∧ twins d1 d2 v1 v2)).
Proof using HP Hess Hroot.
  intros HC [_ HA] (id & Ho & Ho'). destruct (dict_obj _ _ _ _ _ HP _ _ Ho) as (? & c & [= <-] & _ & Hc & Hf & Hn & Hu).
  assert (CL id = Some (c_key c)) as Hcl.
  { rewrite <- (files_class heap_empty). apply (doc_class_in t pm pf fint h D HP cim rdf es files_all Hroot). eauto. }
  destruct (HA id _ Hcl) as (o1 & o2 & Ho1 & Ho2 & Hc1 & Hc2 & H1 & H2 & H3). rewrite Ho' in Ho2. injection Ho2 as <-.
  exists id, (c_key c), o1. split_and!; try done; [by exists id|by exists c].
Qed.
Lemma restored d1 h1 d2 h2 : Copies t h D h1 d1 → alike t CL d1 h1 d2 h2 → Sound t h2 → map fst d2 = map fst D →
  (∀ id id' o, assoc id d1 = Some (VRef o) → assoc id' d1 = Some (VRef o) → id' = id) → Restored t h D h2 d2.
Proof using HP Hess Hroot Ht.
  intros HC HA Hs Hk Hinj.
  assert (∀ id v1, assoc id d1 = Some v1 → ∃ o o1, v1 = VRef o1 ∧ assoc id D = Some (VRef o)) as Hd1.
  { intros id v1 Hv1. assert (id ∈ map fst D) as Hin. { rewrite <- (cp_keys _ _ _ _ _ HC). apply elem_of_list_fmap. exists (id, v1). split; [done|by apply assoc_in]. }
    apply elem_of_list_fmap in Hin as ([i v] & -> & Hin). cbn [fst] in *. destruct (po_ids _ _ _ _ _ HP _ _ Hin) as (o & -> & _).
    assert (assoc i D = Some (VRef o)) as Ho by (apply assoc_NoDup; [apply HP|done]).
    destruct (cp_objects _ _ _ _ _ HC _ _ Ho) as [o1 Ho1]. rewrite Hv1 in Ho1. injection Ho1 as ->. by exists o, o1. }
  assert (∀ x x1 v2, copy_of D d1 x x1 → twins d1 d2 (VRef x1) v2 → ∃ x2, v2 = VRef x2 ∧ copy_of D d2 x x2) as Htwin.
  { intros x x1 v2 (id & Hx & Hx1) [[? _]|(id' & H1 & H2)]; [done|]. pose proof (Hinj _ _ _ Hx1 H1) as ->.
    destruct HA as [_ HA]. destruct (dict_obj _ _ _ _ _ HP _ _ Hx) as (? & c & [= <-] & _ & Hc & _).
    assert (CL id = Some (c_key c)) as Hcl.
    { rewrite <- (files_class heap_empty). apply (doc_class_in t pm pf fint h D HP cim rdf es files_all Hroot). eauto. }
    destruct (HA id _ Hcl) as (o1 & o2 & _ & Ho2 & _). rewrite H2 in Ho2. injection Ho2 as ->. exists o2. split; [done|]. by exists id. }
  assert (∀ v1, ¬ twins d1 d2 v1 VNone ∨ v1 = VNone) as Hnone.
  { intros v1. destruct (decide (v1 = VNone)) as [->|Hne]; [by right|]. left. intros [[-> _]|(id & H1 & H2)]; [done|].
    destruct (Hd1 _ _ H1) as (o & o1 & -> & Ho). destruct (Htwin o o1 VNone) as (? & ? & _); [by exists id| |done]. right. by exists id. }
  split; [done|..].
  - intros o o' Hco. destruct (alike_copy _ _ _ _ _ _ HC HA Hco) as (id & ck & o1 & _ & _ & _ & _ & Hc & _ & Hc2 & _). by rewrite Hc.
  - intros o o' ck c a v Hco Hck Hc Ha Hv. destruct (alike_copy _ _ _ _ _ _ HC HA Hco) as (id & ck' & o1 & _ & _ & _ & Hco1 & Hc0 & Hc1 & Hc2 & Hu & (c' & Hf & Hn) & Hat & _).
    rewrite Hck in Hc0. injection Hc0 as <-. destruct (cp_attrs _ _ _ _ _ HC _ _ _ _ _ _ Hco1 Hck Hc Ha Hv) as (v' & Hv' & Heq). exists v'. split; [|done].
    assert (plain_attr t ck a) as Hpl.
    { destruct (decide (a = u "UUID")) as [->|Hne].
      - split_and!; [done|by eapply (blank_uuid t pm (c_name c') ck)|by exists c].
      - assert (round_cls (mro t ck) = true) as Hrc by (by eapply (round_ok t pm ck c')). by destruct (round_attr_ok _ _ Hrc c a Hc Ha Hne). }
    destruct (Hat a Hpl) as (w & Hw1 & Hw2). destruct Hpl as (_ & Hl & _).
    destruct Hv' as (k1 & Hk1 & Hv'). rewrite Hc1 in Hk1. injection Hk1 as <-. rewrite Hl in Hv'.
    destruct Hw1 as (k1 & Hk1 & Hw1). rewrite Hc1 in Hk1. injection Hk1 as <-. rewrite Hl in Hw1.
    destruct Hw2 as (k2 & Hk2 & Hw2). rewrite Hc2 in Hk2. injection Hk2 as <-. rewrite Hl in Hw2.
    exists ck. split; [done|]. rewrite Hl. rewrite Hw1 in Hv'. injection Hv' as <-. done.
  - intros o o' p k v Hco Hpk Hkind Hv. destruct (alike_copy _ _ _ _ _ _ HC HA Hco) as (id & ck & o1 & _ & _ & _ & Hco1 & Hck & Hc1 & Hc2 & _ & _ & _ & Hen & _).
    unfold pkind in Hpk. rewrite Hck in Hpk. change (lookup_prop t ck p = Some k) in Hpk. destruct (Hen p k Hpk Hkind) as (v1 & v2 & Hs1 & Hs2 & Htw).
    assert (link_kind k = true) as Hlk by (by destruct k). assert (many_kind k = false) as Hmk by (by destruct k).
    destruct (link_single t pm Ht ck p k Hpk Hlk Hmk) as (c & Hcm & Hr & Hm).
    assert (sees t h o p v) as Hsee. { exists ck. split; [done|]. rewrite Hpk. by destruct k. }
    destruct (cp_refs _ _ _ _ _ HC _ _ _ _ _ _ Hco1 Hck Hcm Hr Hm Hsee) as (v1' & Hvc & Hv1').
    destruct Hs1 as (k1 & Hk1 & Hs1). rewrite Hc1 in Hk1. injection Hk1 as <-. rewrite Hpk in Hs1.
    destruct Hs2 as (k2 & Hk2 & Hs2). rewrite Hc2 in Hk2. injection Hk2 as <-. rewrite Hpk in Hs2.
    destruct Hv1' as (k1 & Hk1 & Hv1'). rewrite Hc1 in Hk1. injection Hk1 as <-. rewrite Hpk in Hv1'.
    assert (view h1 o1 (Priv p) = Some (OV v1) ∧ view h2 o' (Priv p) = Some (OV v2) ∧ view h1 o1 (Priv p) = Some (OV v1')) as (E1 & E2 & E3) by (by destruct k).
    rewrite E1 in E3. injection E3 as <-. exists v2. split; [|done].
    destruct Hvc as [v Hnr|x x1 Hx|x Hx].
    + destruct Htw as [[-> ->]|(i & H1 & _)]; [by apply vc_plain|]. destruct (Hd1 _ _ H1) as (? & y & -> & _). by destruct (Hnr y).
    + destruct (Htwin _ _ _ Hx Htw) as (x2 & -> & Hx2). by apply vc_object.
    + destruct Htw as [[_ ->]|(i & H1 & _)]; [|by destruct (Hd1 _ _ H1) as (? & ? & ? & _)]. apply vc_outside. intros x2 Hx2.
      destruct (alike_copy _ _ _ _ _ _ HC HA Hx2) as (i & _ & x1 & _ & _ & _ & Hc' & _). by apply (Hx x1).
  - intros o o' q p ys Hco Hpk Hys. destruct (alike_copy _ _ _ _ _ _ HC HA Hco) as (id & ck & o1 & _ & _ & _ & Hco1 & Hck & Hc1 & Hc2 & _ & _ & _ & _ & Hme).
    unfold pkind in Hpk. rewrite Hck in Hpk. change (lookup_prop t ck q = Some (PManyOne p)) in Hpk. destruct (Hme q _ Hpk I) as (ys1 & ys2 & Hy1 & Hy2 & H12 & H21).
    destruct (cp_members _ _ _ _ _ HC _ _ _ _ _ _ Hco1 Hck Hpk Hys) as (ys1' & Hy1' & _ & Hmem). rewrite Hy1 in Hy1'. injection Hy1' as <-.
    exists ys2. split_and!; [done| |].
    + assert (pkind t h2 o' q = Some (PManyOne p)) as HK by (unfold pkind; by rewrite Hc2).
      destruct (lk_coll _ _ (proj2 (so_consistent _ _ Hs)) o' q p _ HK Hy2) as (zs & [= <-] & Hnd & _). done.
    + intros y2. split.
      * intros Hin. destruct (H21 _ Hin) as (v1 & Hv1 & Htw). apply Hmem in Hv1 as (x & x1 & Hx & Hcx & ->).
        destruct (Htwin _ _ _ Hcx Htw) as (x2 & -> & Hx2). by exists x, x2.
      * intros (x & x2 & Hx & Hcx & ->). destruct (alike_copy _ _ _ _ _ _ HC HA Hcx) as (i & _ & x1 & HxD & Hx1 & Hx2 & Hc' & _).
        destruct (H12 (VRef x1)) as (v2 & Hv2 & Htw); [apply Hmem; by exists x, x1|].
        destruct (Htwin _ _ _ Hc' Htw) as (x2' & -> & (i' & HxD' & Hx2')).
        assert (i' = i) as ->; [|congruence].
        destruct (po_ids _ _ _ _ _ HP _ _ (assoc_in _ _ _ HxD)) as (? & [= <-] & Hu & _).
        destruct (po_ids _ _ _ _ _ HP _ _ (assoc_in _ _ _ HxD')) as (? & [= <-] & Hu' & _).
        by pose proof (sees_det _ _ _ _ _ _ Hu Hu') as [= ->].
Qed.
(** The files are read and the model is back. *)
Lemma files_read hr f : Sound t hr → ∃ d' h2,
  reads_files (λ e, reads base rdf t pm (S (S f)) pf false (root_elem rdf) (flat base (map (item_of rdf) e) ++ [EEnd (root_elem rdf)])) ess [] hr d' h2 ∧
  Restored t h D h2 d' ∧ Sound t h2.
Proof using HP Hess Hroot Ht Hcim Hends Hstack.
  intros Hs. destruct (round_reads t pm Ht pf fint h D HP cim rdf es files_all Hcim Hroot hr f Hs) as (d1 & h1 & E1 & HC & _ & _ & Hs1).
  pose proof (doc_compatible t pm Ht pf fint h D HP cim rdf es files_all Hcim Hroot hr) as Hcomp.
  pose proof (doc_coherent t pm Ht pf fint h D HP cim rdf es files_all Hcim Hroot hr) as Hco.
  pose proof (doc_attributes_plain t pm Ht pf fint h D HP cim rdf es files_all Hcim Hroot) as Hpl.
  pose proof (doc_instantiable t pm pf fint h D HP cim rdf es files_all Hroot) as Hi.
  pose proof (files_to_ends hr) as He.
  rewrite <- files_parts in E1, Hcomp, Hco, Hpl, Hi, He.
  destruct (C92_returns t pm base rdf f pf (root_elem rdf) false parts hr d1 h1 Ht Hs Hroot files_ok files_distinct files_turn Hcomp Hco Hpl He Hi E1) as (d2 & h2 & E2).
  pose proof (whole_agree t pm base rdf _ (root_elem rdf) hr Hroot files_ok files_distinct Hco) as Hag.
  pose proof (whole_compatible t pm base rdf _ (root_elem rdf) hr Hroot files_ok files_distinct Hcomp) as Hcomp'.
  pose proof (whole_plain t pm base rdf _ (root_elem rdf) Hroot files_ok files_distinct Hpl) as Hpl'.
  pose proof (whole_made t pm Ht base rdf f pf _ (root_elem rdf) hr Hroot files_ok files_distinct false d1 h1 Hs Hcomp Hco Hpl E1) as HM1.
  pose proof (parts_made t pm Ht base rdf f pf parts files_ok files_distinct files_turn Hcomp' Hag Hpl' parts [] [] hr d2 h2 eq_refl
    (Made_start t base rdf pf hr Hs) E2) as HM2.
  pose proof (parts_keys t pm Ht base rdf f pf parts files_ok files_distinct files_turn Hcomp' Hag Hpl' parts [] [] hr d2 h2 eq_refl
    (Made_start t base rdf pf hr Hs) E2) as Hk2.
  destruct (PropReader.C24_keys t pm base rdf _ pf _ _ _ [] hr d1 h1 Ht (proj1 (so_consistent _ _ Hs)) (flat_foreign base _ _ Hroot) E1) as [Hk1 _].
  rewrite declared_root in Hk1 by done.
  exists d2, h2. split_and!; [| |by eapply md_sound].
  - clear -E2 Hroot. revert E2. generalize (@nil (pystr * val)) as d. generalize hr. induction ess as [|e l IH]; intros hr' d E2.
    + inversion E2; subst. constructor.
    + cbn [map] in E2. inversion E2 as [|root items rest' d0 h0 d1 h1 d3 h3 Hr H1 H2]; subst. eapply (rf_cons _ _ _ _ _ d1 h1); [|by apply IH].
      rewrite <- H1. by apply reads_root.
  - apply (restored d1 h1); [done| |by eapply md_sound| |by eapply md_unique].
    + by eapply (Made_alike t base rdf pf).
    + rewrite <- (cp_keys _ _ _ _ _ HC). by etransitivity; [exact Hk2|symmetry; exact Hk1].
Qed.
End main.
