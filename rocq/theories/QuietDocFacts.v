(** The documents of cimwrite are read without complaints, but for references
    to objects that are not exported. *)
From Coq Require Import String ZArith Lia.
From stdpp Require Import prelude gmap.
From Verif Require Import PyStr PyHeap Schema Assoc AssocSpec HeapFacts TabCIM14 TabCIM15 TabProfiles Tables TableSpec TableFacts
  Reader ReaderSpec ReaderFacts CreateFacts ReadStepFacts ReadDocFacts XmlSpec WriteSpec WriteFacts
  RoundSpec RoundTables RoundDocFacts RoundFacts RoundMain DocSpec DocFacts ExportDocFacts VocabSpec VocabFacts ReaderLog LogSpec LogFacts PropLog QuietSpec.

Section export.
Context (t : schema) (pm : list (name * name)) (Ht : (t, pm) ∈ tables) (pf : pystr → option pystr) (fint : pystr → option Z).
Context (h : heap) (d : dict) (HP : Portable t pm pf h d) (cim rdf : pystr) (es : list entry) (Hes : Writes_all t fint cim h d es) (hr : heap).
Notation base := (u "{" ++ cim ++ u "}").
Context (Hcim : ∃ c r, cim = c :: r ∧ c ≠ 35%N) (Hroot : in_base base (root_elem rdf) = false).
Notation evs := (flat base (map (item_of rdf) es) ++ [EEnd (root_elem rdf)]).
Lemma doc_attributes_known : attributes_known base rdf t pm evs [].
Proof using Ht HP Hes Hroot.
  intros id el a k Hin (_ & _ & _ & Ha) Hk. rewrite (all_statements t pm pf fint h d HP cim rdf es Hes Hroot) in Hin.
  destruct (statement_does t pm Ht pf fint h d HP cim rdf es Hes id el Hin) as (e & o & c0 & p & ky & He & Hid & Ho & Hck & Hrc & Hp & -> & Hdo).
  apply (doc_class t pm pf fint h d HP cim rdf es Hes Hroot) in Hk as (o' & Ho' & Hk). rewrite Ho in Ho'. injection Ho' as <-.
  destruct Hdo as [ck c a' v dv s Hc Hcm Ha' Hne He' Hv Hdv Hneq Hs|ck c a' v dt s Hc Hcm Ha' Hne He' Hv Hs|ck c r x iv s Hc Hcm Hr Hm Hx Hi Hs];
    assert (k = ck) as -> by congruence; exists c; (split; [done|]).
  - rewrite (act_local t pm Ht cim rdf c a' _ (mro_sub _ _ _ Hcm) (or_introl Ha')) in Ha by reflexivity. subst a'. by left.
  - rewrite (act_local t pm Ht cim rdf c a' _ (mro_sub _ _ _ Hcm) (or_introl Ha')) in Ha by reflexivity. subst a'. by left.
  - rewrite (act_local t pm Ht cim rdf c r _ (mro_sub _ _ _ Hcm) (or_intror Hr)) in Ha by reflexivity. subst r. right. by left.
Qed.
Lemma doc_classes_known : classes_known base rdf pm evs.
Proof using HP Hes Hroot.
  intros e l id He Ho. destruct (decide (l ∈ map fst pm)) as [|Hl]; [done|]. exfalso.
  assert ((l, id) ∈ unlocated base rdf pm evs) as Hin by (apply C81_unlocated; eauto).
  rewrite unlocated_flat in Hin.
  - apply elem_of_list_omap in Hin as (i & (en & -> & Hen)%elem_of_list_fmap & Hx).
    destruct (written_entry t pm pf fint h d HP cim es Hes en Hen) as (o & c & _ & _ & _ & _ & Hn & Ha & _).
    unfold item_unlocated in Hx. rewrite item_uuid in Hx. cbn [i_tag item_of] in Hx. by rewrite Hn, Ha in Hx.
  - apply Forall_forall. intros i (en & -> & _)%elem_of_list_fmap. apply item_flat_ok.
  - exact Hroot.
Qed.
Lemma doc_objects_closed : objects_closed base rdf evs.
Proof using Type.
  intros e l id He Ho. exists e. split; [|done]. apply elem_of_app. left. apply elem_of_app in He as [He|He%elem_of_list_singleton]; [|done].
  apply elem_of_list_In, in_flat_map in He as (i & Hi & He). apply elem_of_list_In, in_flat_map. exists i. split; [done|].
  apply elem_of_list_In. apply elem_of_list_In in He. unfold item_events in *. apply elem_of_cons in He as [[= ->]|He].
  - apply elem_of_cons. right. apply elem_of_app. right. by apply elem_of_list_singleton.
  - apply elem_of_app in He as [He|He%elem_of_list_singleton]; [|done]. apply elem_of_cons. right. apply elem_of_app. left.
    apply elem_of_list_In, in_flat_map in He as (p & Hp & He). apply elem_of_list_In, in_flat_map. exists p. split; [done|].
    unfold pel_events in *. destruct He as [He|[He|[]]]; [|done]. right. left. congruence.
Qed.
Lemma doc_references : references_known base rdf pm evs [] hr ↔ refs_inside t h d.
Proof using Ht HP Hes Hcim Hroot.
  pose proof (all_statements t pm pf fint h d HP cim rdf es Hes Hroot) as Hst.
  pose proof (λ id k, doc_class_in t pm pf fint h d HP cim rdf es Hes Hroot hr id k) as Hcl. split.
  - intros Hk id o ck c p x Hin Hck Hc Hp Hm Hx.
    destruct (po_refs _ _ _ _ _ HP id o ck c p x Hin Hck Hc Hp Hm Hx) as (i & Hi & _ & Hout).
    pose proof (assoc_NoDup d id (VRef o) (po_keys _ _ _ _ _ HP) Hin) as Ho.
    pose proof (written_ref t pm Ht pf fint h d HP cim rdf es Hes id o ck c p x i Ho Hck Hc Hp Hm Hx Hi) as Hw.
    rewrite <- Hst in Hw. destruct (Hk id _ p i Hw) as [k Hk'].
    + split; [|apply act_resource]. 
      pose proof (act_local t pm Ht cim rdf c p (PResource (ptag c p) (u "#" ++ i)) (mro_sub _ _ _ Hc) (or_intror Hp) eq_refl) as Hloc.
      destruct (pel_no_id rdf (PResource (ptag c p) (u "#" ++ i))) as [Hn1 Hn2]. split; [apply pel_base|]. done.
    + apply Hcl in Hk' as (o2 & Ho2 & _). specialize (Hout _ Ho2). exists i. apply assoc_in. congruence.
  - intros Hins id el a y Hin [Hp Hy]. rewrite Hst in Hin.
    destruct (statement_does t pm Ht pf fint h d HP cim rdf es Hes id el Hin) as (e & o & c0 & p & ky & He & Hid & Ho & Hck & Hrc & Hpp & -> & Hdo).
    rewrite act_resource in Hy.
    destruct Hdo as [ck c a' v dv s Hc Hcm Ha' Hne He' Hv Hdv Hneq Hs|ck c a' v dt s Hc Hcm Ha' Hne He' Hv Hs|ck c r x iv s Hc Hcm Hr Hm Hx Hi Hs].
    + done.
    + exfalso. destruct Hcim as (c1 & r1 & E1 & Hne1). rewrite E1 in Hy. injection Hy as E2 _. done.
    + injection Hy as ->. destruct (Hins id o ck c r x (assoc_in _ _ _ Ho) Hc Hcm Hr Hm Hx) as (i & Hxi).
      destruct (po_ids _ _ _ _ _ HP _ _ Hxi) as (o2 & [= <-] & Hs2 & _). pose proof (sees_det _ _ _ _ _ _ Hi Hs2) as ->.
      assert (i = y) as -> by (by inversion Hs). destruct (po_class _ _ _ _ _ HP y x Hxi) as (cx & Hcx & _).
      exists (c_key cx). apply Hcl. exists x. split; [|done]. by apply assoc_NoDup; [apply (po_keys _ _ _ _ _ HP)|].
Qed.
End export.
