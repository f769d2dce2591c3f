(** Properties of reading an export with other classes than those it was
    written with. *)
From Coq Require Import String ZArith Lia.
From stdpp Require Import prelude gmap.
From Verif Require Import PyStr PyHeap Schema Assoc AssocSpec HeapFacts BlankFacts Names TabCIM14 TabCIM15 TabProfiles Tables TableSpec TableFacts
  Reader ReaderSpec ReaderFacts FrameFacts CreateFacts ReaderTabs ReadSound ReadStepFacts ReadDocFacts ReadDemo PropReader.
From Verif Require Import XmlWriter XmlSpec XmlCalls XmlDocFacts WriteSpec CimWriter WriteFacts WriteDocFacts WriteTables PropWriter.
From Verif Require Import RoundSpec RoundTables RoundDocFacts RoundFacts RoundMain RoundDemo PropRound FilesSpec CrossSpec CrossTables CrossFacts PropFiles.

(** *** C99 *)
(** An export is read with a package map whose classes have what the classes of
    the writer have, as those of CIM15 have for most of its profiles.  Each object
    comes back as an object of the class of the same name with the same
    attributes, single references and one-to-many collections; what only the
    classes of the reader have is as in a new object. *)
Theorem C99_moved t pm T tm t14 t15 pf fint enc h d h' w hr f : (t, pm) ∈ tables → (T, tm) ∈ tables → embeds t pm T tm →
  Portable t pm pf h d → only_ends t h d → Sound T hr → enc_ok enc →
  writes_to t fint d enc h = (inl tt, h', w) →
  ∃ src d' h2, parses_to (w_out w) src ∧
    cimread (S (S f)) pf cim14_uri t14 t15 src (Some (T, tm)) (Some cim15_uri) None hr = (None, d', h2) ∧
    Moved t h d T tm h2 d' ∧ Sound T h2.
Proof.
  intros Ht HT Hem HP Hen Hs He Hw. destruct (C51_document _ _ _ _ _ _ _ _ Ht He Hw) as (es & Hes & Hp).
  specialize (Hp (portable_chars t pm Ht pf fint h d HP cim_ns es Hes cim_ns_chars)).
  destruct (cross_read t pm Ht pf fint h d HP cim_ns rdf_ns es Hes cim_ns_head root_foreign T tm HT Hem hr f Hs Hen) as (d' & h2 & Hr & HM & Hs2).
  exists (doc_source es), d', h2. split_and!; [by eexists|by rewrite given_doc|done..].
Qed.
Print Assumptions C99_moved.
(** The tables this holds for. *)
Definition intocim15 : list (schema * list (name * name)) :=
  [(cim15, cim15_map); (cim15_cdpsm_balanced, cim15_cdpsm_balanced_map); (cim15_cdpsm_connectivity, cim15_cdpsm_connectivity_map); (cim15_cdpsm_geographical, cim15_cdpsm_geographical_map)].
Lemma intocim15_yes t pm : (t, pm) ∈ intocim15 → embeds t pm cim15 cim15_map.
Proof.
  unfold intocim15. rewrite !elem_of_cons, elem_of_nil. intros [E|[E|[E|[E|[]]]]].
  - injection E as -> ->. apply embeds_refl. exact cim15_in.
  - injection E as -> ->. apply embeds_b_ok. vm_compute. reflexivity.
  - injection E as -> ->. apply embeds_b_ok. vm_compute. reflexivity.
  - injection E as -> ->. apply embeds_b_ok. vm_compute. reflexivity.
Qed.
Lemma intocim15_only t pm : (t, pm) ∈ tables → embeds t pm cim15 cim15_map → (t, pm) ∈ intocim15.
Proof.
  unfold tables, profiles. rewrite !elem_of_cons, elem_of_nil. intros [E|[E|[E|[E|[E|[E|[E|[E|[E|[E|[E|[E|[E|[E|[E|[E|[]]]]]]]]]]]]]]]]] Hem.
  - exfalso. injection E as -> ->. revert Hem. apply (fails_b_ok _ _ _ _ (u "IdentifiedObject")). vm_compute. reflexivity.
  - rewrite E. unfold intocim15. rewrite !elem_of_cons. left. reflexivity.
  - exfalso. injection E as -> ->. revert Hem. apply (fails_b_ok _ _ _ _ (u "DistributionTransformerWinding")). vm_compute. reflexivity.
  - exfalso. injection E as -> ->. revert Hem. apply (fails_b_ok _ _ _ _ (u "DistributionTransformerWinding")). vm_compute. reflexivity.
  - exfalso. injection E as -> ->. revert Hem. apply (fails_b_ok _ _ _ _ (u "DistributionTransformerWinding")). vm_compute. reflexivity.
  - exfalso. injection E as -> ->. revert Hem. apply (fails_b_ok _ _ _ _ (u "FossilFuel")). vm_compute. reflexivity.
  - exfalso. injection E as -> ->. revert Hem. apply (fails_b_ok _ _ _ _ (u "SvTapStep")). vm_compute. reflexivity.
  - exfalso. injection E as -> ->. revert Hem. apply (fails_b_ok _ _ _ _ (u "ConnectivityNode")). vm_compute. reflexivity.
  - exfalso. injection E as -> ->. revert Hem. apply (fails_b_ok _ _ _ _ (u "Thing")). vm_compute. reflexivity.
  - exfalso. injection E as -> ->. revert Hem. apply (fails_b_ok _ _ _ _ (u "OperationalLimit")). vm_compute. reflexivity.
  - exfalso. injection E as -> ->. revert Hem. apply (fails_b_ok _ _ _ _ (u "SvTapStep")). vm_compute. reflexivity.
  - exfalso. injection E as -> ->. revert Hem. apply (fails_b_ok _ _ _ _ (u "Terminal")). vm_compute. reflexivity.
  - exfalso. injection E as -> ->. revert Hem. apply (fails_b_ok _ _ _ _ (u "ACLineSegment")). vm_compute. reflexivity.
  - rewrite E. unfold intocim15. rewrite !elem_of_cons. right. left. reflexivity.
  - rewrite E. unfold intocim15. rewrite !elem_of_cons. right. right. left. reflexivity.
  - rewrite E. unfold intocim15. rewrite !elem_of_cons. right. right. right. left. reflexivity.
Qed.
Definition intocim14 : list (schema * list (name * name)) :=
  [(cim14, cim14_map); (cim14_cpsm_statevariables, cim14_cpsm_statevariables_map); (cim14_cpsm_topology, cim14_cpsm_topology_map); (cim14_entsoe_statevariables, cim14_entsoe_statevariables_map); (cim14_entsoe_topology, cim14_entsoe_topology_map)].
Lemma intocim14_yes t pm : (t, pm) ∈ intocim14 → embeds t pm cim14 cim14_map.
Proof.
  unfold intocim14. rewrite !elem_of_cons, elem_of_nil. intros [E|[E|[E|[E|[E|[]]]]]].
  - injection E as -> ->. apply embeds_refl. left.
  - injection E as -> ->. apply embeds_b_ok. vm_compute. reflexivity.
  - injection E as -> ->. apply embeds_b_ok. vm_compute. reflexivity.
  - injection E as -> ->. apply embeds_b_ok. vm_compute. reflexivity.
  - injection E as -> ->. apply embeds_b_ok. vm_compute. reflexivity.
Qed.
Lemma intocim14_only t pm : (t, pm) ∈ tables → embeds t pm cim14 cim14_map → (t, pm) ∈ intocim14.
Proof.
  unfold tables, profiles. rewrite !elem_of_cons, elem_of_nil. intros [E|[E|[E|[E|[E|[E|[E|[E|[E|[E|[E|[E|[E|[E|[E|[E|[]]]]]]]]]]]]]]]]] Hem.
  - rewrite E. unfold intocim14. rewrite !elem_of_cons. left. reflexivity.
  - exfalso. injection E as -> ->. revert Hem. apply (fails_b_ok _ _ _ _ (u "Stereotype")). vm_compute. reflexivity.
  - exfalso. injection E as -> ->. revert Hem. apply (fails_b_ok _ _ _ _ (u "DistributionTransformerWinding")). vm_compute. reflexivity.
  - exfalso. injection E as -> ->. revert Hem. apply (fails_b_ok _ _ _ _ (u "DistributionTransformerWinding")). vm_compute. reflexivity.
  - exfalso. injection E as -> ->. revert Hem. apply (fails_b_ok _ _ _ _ (u "DistributionTransformerWinding")). vm_compute. reflexivity.
  - exfalso. injection E as -> ->. revert Hem. apply (fails_b_ok _ _ _ _ (u "FossilFuel")). vm_compute. reflexivity.
  - rewrite E. unfold intocim14. rewrite !elem_of_cons. right. left. reflexivity.
  - rewrite E. unfold intocim14. rewrite !elem_of_cons. right. right. left. reflexivity.
  - exfalso. injection E as -> ->. revert Hem. apply (fails_b_ok _ _ _ _ (u "Thing")). vm_compute. reflexivity.
  - exfalso. injection E as -> ->. revert Hem. apply (fails_b_ok _ _ _ _ (u "TransformerWinding")). vm_compute. reflexivity.
  - rewrite E. unfold intocim14. rewrite !elem_of_cons. right. right. right. left. reflexivity.
  - rewrite E. unfold intocim14. rewrite !elem_of_cons. right. right. right. right. left. reflexivity.
  - exfalso. injection E as -> ->. revert Hem. apply (fails_b_ok _ _ _ _ (u "PerLengthSequenceImpedance")). vm_compute. reflexivity.
  - exfalso. injection E as -> ->. revert Hem. apply (fails_b_ok _ _ _ _ (u "PhaseTapChangerLinear")). vm_compute. reflexivity.
  - exfalso. injection E as -> ->. revert Hem. apply (fails_b_ok _ _ _ _ (u "Fuse")). vm_compute. reflexivity.
  - exfalso. injection E as -> ->. revert Hem. apply (fails_b_ok _ _ _ _ (u "Fuse")). vm_compute. reflexivity.
Qed.
Theorem C99_tables t pm : (t, pm) ∈ tables →
  (embeds t pm cim15 cim15_map ↔ (t, pm) ∈ [(cim15, cim15_map); (cim15_cdpsm_balanced, cim15_cdpsm_balanced_map);
     (cim15_cdpsm_connectivity, cim15_cdpsm_connectivity_map); (cim15_cdpsm_geographical, cim15_cdpsm_geographical_map)]) ∧
  (embeds t pm cim14 cim14_map ↔ (t, pm) ∈ [(cim14, cim14_map); (cim14_cpsm_statevariables, cim14_cpsm_statevariables_map);
     (cim14_cpsm_topology, cim14_cpsm_topology_map); (cim14_entsoe_statevariables, cim14_entsoe_statevariables_map);
     (cim14_entsoe_topology, cim14_entsoe_topology_map)]).
Proof.
  intros Ht. split; split; [exact (intocim15_only t pm Ht)|exact (intocim15_yes t pm)|exact (intocim14_only t pm Ht)|exact (intocim14_yes t pm)].
Qed.
Print Assumptions C99_tables.
Lemma profile15_in t pm : (t, pm) ∈ [(cim15_cdpsm_balanced, cim15_cdpsm_balanced_map); (cim15_cdpsm_connectivity, cim15_cdpsm_connectivity_map);
    (cim15_cdpsm_geographical, cim15_cdpsm_geographical_map)] → (t, pm) ∈ tables.
Proof.
  rewrite !elem_of_cons, elem_of_nil. unfold tables, profiles. rewrite !elem_of_cons.
  intros [E|[E|[E|[]]]]; rewrite E; do 13 right; [left|right; left|right; right; left]; reflexivity.
Qed.
(** An export of a profile of CIM15, read without arguments. *)
Theorem C99_default t pm pf fint enc h d h' w hr f :
  (t, pm) ∈ [(cim15_cdpsm_balanced, cim15_cdpsm_balanced_map); (cim15_cdpsm_connectivity, cim15_cdpsm_connectivity_map);
    (cim15_cdpsm_geographical, cim15_cdpsm_geographical_map)] →
  Portable t pm pf h d → only_ends t h d → Sound cim15 hr → enc_ok enc →
  writes_to t fint d enc h = (inl tt, h', w) →
  ∃ src d' h2, parses_to (w_out w) src ∧
    cimread (S (S f)) pf cim14_uri (cim14, cim14_map) (cim15, cim15_map) src None None None hr = (None, d', h2) ∧
    Moved t h d cim15 cim15_map h2 d' ∧ Sound cim15 h2.
Proof.
  intros Hin HP Hen Hs He Hw.
  assert ((t, pm) ∈ tables) as Ht. { revert Hin. apply profile15_in. }
  assert (embeds t pm cim15 cim15_map) as Hem. { apply intocim15_yes. unfold intocim15. by right. }
  destruct (C51_document _ _ _ _ _ _ _ _ Ht He Hw) as (es & Hes & Hp).
  specialize (Hp (portable_chars t pm Ht pf fint h d HP cim_ns es Hes cim_ns_chars)).
  destruct (cross_read t pm Ht pf fint h d HP cim_ns rdf_ns es Hes cim_ns_head root_foreign _ _ cim15_in Hem hr f Hs Hen) as (d' & h2 & Hr & HM & Hs2).
  exists (doc_source es), d', h2. split; [by eexists|]. split; [rewrite default_doc; exact Hr|]. split; [exact HM|exact Hs2].
Qed.
Print Assumptions C99_default.
(** The generating unit and its machine of the balanced profile. *)
Notation plant_d := (snd (fst (demo_r plant_evs))).
Example C99_example :
  embeds bal bal_map cim15 cim15_map ∧ Portable bal bal_map pf_demo plant_h plant_d ∧ only_ends bal plant_h plant_d ∧ Sound cim15 heap_empty ∧
  enc_ok (u "utf-8") ∧ map fst plant_d = [u "g1"; u "m1"] ∧ view plant_h 1 (Priv n_GeneratingUnit) = Some (OV (VRef 0)) ∧
  fst (fst (writes_to bal fint_demo plant_d (u "utf-8") plant_h)) = inl tt.
Proof.
  split; [apply intocim15_yes; right; left|]. split; [apply demo_portable; compute_now|]. split; [apply ends_b_ok; compute_now|].
  split; [apply Sound_empty|]. split; [right; by left|]. split; [compute_now|]. split; compute_now.
Qed.
(** What is exported from CIM14 is read as CIM15 when cimread is not told
    otherwise, and objects of classes that CIM15 does not have are lost. *)
Definition B14 : pystr := u "{" ++ cim14_uri ++ u "#}".
Definition winding_evs : list event :=
  flat B14 [obj "TransformerWinding" "w1" [ref "TransformerWinding.PowerTransformer" "#p1"];
            obj "PowerTransformer" "p1" [att "IdentifiedObject.name" "T1"]] ++ [EEnd root].
Notation winding_r := (reads B14 R cim14 cim14_map 20 pf_demo false root winding_evs [] heap_empty).
Notation winding_d := (snd (fst winding_r)).
Notation winding_h := (snd winding_r).
Notation winding_w := (snd (writes_to cim14 fint_demo winding_d (u "utf-8") winding_h)).
Lemma cim14_in : (cim14, cim14_map) ∈ tables.
Proof. left. Qed.
Lemma winding_sound r : reads B14 R cim14 cim14_map 20 pf_demo false root winding_evs [] heap_empty = r → fst (fst r) = None → Sound cim14 (snd r).
Proof.
  intros E. destruct r as [[x d'] h']. cbn [fst snd]. intros ->.
  refine (reads_sound cim14 cim14_map cim14_in B14 R 18 pf_demo false root winding_evs [] heap_empty None d' h' (Sound_empty _) (dict_alive_nil _) _ _ E _).
  - apply foreign_b_ok. compute_now.
  - apply compatible_doc_b_ok. compute_now.
  - done.
Qed.
Definition source_of (w : writer) : source := Source (match parse_ns (w_out w) with Some x => xevents true x | None => [] end) false.
Lemma source_parses w : match parse_ns (w_out w) with Some _ => true | None => false end = true → parses_to (w_out w) (source_of w).
Proof. unfold source_of. intros H. destruct (parse_ns _) as [x|] eqn:E; [|done]. by exists x. Qed.
Notation winding_back := (cimread 20 pf_demo cim14_uri (cim14, cim14_map) (cim15, cim15_map) (source_of winding_w) None None None heap_empty).
Theorem C99_any_tables_refuted : ∃ t pm pf fint h d w src d' h2, (t, pm) ∈ tables ∧ Portable t pm pf h d ∧ only_ends t h d ∧
  writes_to t fint d (u "utf-8") h = (inl tt, h, w) ∧ parses_to (w_out w) src ∧
  cimread 20 pf cim14_uri (cim14, cim14_map) (cim15, cim15_map) src None None None heap_empty = (None, d', h2) ∧
  map fst d = [u "w1"; u "p1"] ∧ map fst d' = [u "p1"].
Proof.
  exists cim14, cim14_map, pf_demo, fint_demo, winding_h, winding_d, winding_w, (source_of winding_w), (snd (fst winding_back)), (snd winding_back).
  split; [exact cim14_in|]. split; [apply portable_b_ok; [apply (winding_sound winding_r eq_refl)|]; compute_now|]. split; [apply ends_b_ok; compute_now|].
  split; [apply returns_keeps; compute_now|]. split; [apply source_parses; compute_now|].
  split; [apply triple_eq; compute_now|]. split; compute_now.
Qed.
Print Assumptions C99_any_tables_refuted.
