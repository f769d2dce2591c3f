(** Properties of cimread applied to what cimwrite has written. *)
From Coq Require Import String ZArith Lia.
From stdpp Require Import prelude gmap.
From Verif Require Import PyStr PyHeap Schema Assoc AssocSpec HeapFacts BlankFacts Names TabCIM14 TabCIM15 TabProfiles Tables TableSpec TableFacts
  Reader ReaderSpec ReaderFacts FrameFacts CreateFacts ReaderTabs ReadSound ReadStepFacts ReadDocFacts ReadDemo PropReader.
From Verif Require Import XmlWriter XmlSpec XmlCalls XmlDocFacts WriteSpec CimWriter WriteFacts WriteDocFacts WriteTables PropWriter.
From Verif Require Import RoundSpec RoundTables RoundDocFacts RoundFacts RoundMain RoundDemo.
Notation rdf_ns := PropWriter.rdf_ns.

(** *** What the reader makes of a document of the writer *)
Definition doc_source (es : list entry) : source := Source (xevents true (doc_tree cim_ns rdf_ns cim_decls es)) false.
Notation wbase := (u "{" ++ cim_ns ++ u "}").
Notation wevents es := (flat wbase (map (item_of rdf_ns) es) ++ [EEnd (root_elem rdf_ns)]).
Lemma doc_xmlns es : xmlns (doc_source es) = inl cim_decls.
Proof.
  unfold xmlns, doc_source. cbn [s_error s_events]. rewrite doc_events. cbn [map app cim_decls fst snd xmlns_from].
  rewrite xmlns_quiet by apply flat_quiet. vm_compute. reflexivity.
Qed.
Lemma read_doc t pm fuel pf es d h base rdf : base = wbase → rdf = rdf_ns →
  read t pm fuel pf base rdf (doc_source es) d h = reads wbase rdf_ns t pm fuel pf false (root_elem rdf_ns) (wevents es) d h.
Proof.
  intros -> ->. unfold reads, read, doc_source. cbn [s_error s_events]. rewrite doc_events. done.
Qed.
Lemma maps_nonempty_true : all_tables (λ _ m, match m with [] => false | _ => true end) = true.
Proof. vm_compute. reflexivity. Qed.
Lemma maps_nonempty t pm : (t, pm) ∈ tables → pm ≠ [].
Proof. intros Ht. pose proof (all_tables_ok _ _ _ maps_nonempty_true Ht) as H. cbv beta in H. by destruct pm. Qed.
Lemma given_doc t pm t14 t15 fuel pf es sd h : (t, pm) ∈ tables →
  cimread fuel pf cim14_uri t14 t15 (doc_source es) (Some (t, pm)) (Some cim15_uri) sd h =
  reads wbase rdf_ns t pm fuel pf false (root_elem rdf_ns) (wevents es) (default [] sd) h.
Proof.
  intros Ht. rewrite (C23_given _ _ _ _ _ _ _ _ _ _ _ (doc_xmlns es) (maps_nonempty _ _ Ht)) by (by vm_compute).
  apply read_doc; vm_compute; reflexivity.
Qed.
Lemma default_doc fuel pf es sd h :
  cimread fuel pf cim14_uri (cim14, cim14_map) (cim15, cim15_map) (doc_source es) None None sd h =
  reads wbase rdf_ns cim15 cim15_map fuel pf false (root_elem rdf_ns) (wevents es) (default [] sd) h.
Proof.
  rewrite (C23_cim15 _ _ _ _ _ _ (doc_xmlns es)); [apply read_doc; vm_compute; reflexivity|].
  intros (ns & Hns & H). unfold cim_decls in Hns. cbn [assoc] in Hns. rewrite str_eqb_refl in Hns. injection Hns as <-. revert H. by vm_compute.
Qed.
Lemma cim_ns_head : ∃ c r, cim_ns = c :: r ∧ c ≠ 35%N.
Proof. by eexists _, _. Qed.
Lemma cim_ns_chars : forallb attr_char cim_ns = true.
Proof. vm_compute. reflexivity. Qed.
Lemma root_foreign : in_base wbase (root_elem rdf_ns) = false.
Proof. vm_compute. reflexivity. Qed.
Lemma cim15_in : (cim15, cim15_map) ∈ tables.
Proof. right. left. Qed.

(** *** C54 *)
(** A dictionary is written and its document read with the same package map:
    the result is a copy.  [hr] is the memory of the reading process. *)
Lemma round_trip t pm pf fint enc h d h' w hr f : (t, pm) ∈ tables → Portable t pm pf h d → Sound t hr → enc_ok enc →
  writes_to t fint d enc h = (inl tt, h', w) →
  ∃ es d' h2, parse_ns (w_out w) = Some (doc_tree cim_ns rdf_ns cim_decls es) ∧
    reads wbase rdf_ns t pm (S (S f)) pf false (root_elem rdf_ns) (wevents es) [] hr = (None, d', h2) ∧
    Copies t h d h2 d' ∧ loses_collections t h d h2 d' ∧ Adds hr h2 d' ∧ Sound t h2.
Proof.
  intros Ht HP Hs He Hw. destruct (C51_document _ _ _ _ _ _ _ _ Ht He Hw) as (es & Hes & Hp).
  specialize (Hp (portable_chars t pm Ht pf fint h d HP cim_ns es Hes cim_ns_chars)).
  destruct (round_reads t pm Ht pf fint h d HP cim_ns rdf_ns es Hes cim_ns_head root_foreign hr f Hs) as (d' & h2 & Hr & H).
  exists es, d', h2. done.
Qed.
Theorem C54_round_trip t pm t14 t15 pf fint enc h d h' w hr f : (t, pm) ∈ tables → Portable t pm pf h d → Sound t hr → enc_ok enc →
  writes_to t fint d enc h = (inl tt, h', w) →
  ∃ src d' h2, parses_to (w_out w) src ∧
    cimread (S (S f)) pf cim14_uri t14 t15 src (Some (t, pm)) (Some cim15_uri) None hr = (None, d', h2) ∧
    Copies t h d h2 d' ∧ Adds hr h2 d' ∧ Sound t h2.
Proof.
  intros Ht HP Hs He Hw. destruct (round_trip _ _ _ _ _ _ _ _ _ _ f Ht HP Hs He Hw) as (es & d' & h2 & Hp & Hr & Hc & _ & Ha & Hs2).
  exists (doc_source es), d', h2. split_and!; [by eexists|by rewrite given_doc|done..].
Qed.
Print Assumptions C54_round_trip.
(** Without further arguments the reader finds out that it is CIM15. *)
Theorem C54_default pf fint enc h d h' w hr f : Portable cim15 cim15_map pf h d → Sound cim15 hr → enc_ok enc →
  writes_to cim15 fint d enc h = (inl tt, h', w) →
  ∃ src d' h2, parses_to (w_out w) src ∧
    cimread (S (S f)) pf cim14_uri (cim14, cim14_map) (cim15, cim15_map) src None None None hr = (None, d', h2) ∧
    Copies cim15 h d h2 d' ∧ Adds hr h2 d' ∧ Sound cim15 h2.
Proof.
  intros HP Hs He Hw. destruct (round_trip _ _ _ _ _ _ _ _ _ _ f cim15_in HP Hs He Hw) as (es & d' & h2 & Hp & Hr & Hc & _ & Ha & Hs2).
  exists (doc_source es), d', h2. split_and!; [by eexists|by rewrite default_doc|done..].
Qed.
Print Assumptions C54_default.
(** Graphs that were read from a document. *)
Lemma demo_sound evs d' h' x : foreign_b Bb evs = true → compatible_doc_b Bb R bal bal_map evs [] heap_empty = true →
  reads Bb R bal bal_map 20 pf_demo false root evs [] heap_empty = (x, d', h') → x = None → Sound bal h'.
Proof.
  intros Hf Hc E ->. eapply (reads_sound bal bal_map bal_in Bb R 18 pf_demo).
  - apply Sound_empty.
  - apply dict_alive_nil.
  - by apply foreign_b_ok.
  - by apply compatible_doc_b_ok.
  - exact E.
  - done.
Qed.
Definition demo_r (evs : list event) := reads Bb R bal bal_map 20 pf_demo false root evs [] heap_empty.
Lemma demo_portable evs : foreign_b Bb evs = true → compatible_doc_b Bb R bal bal_map evs [] heap_empty = true →
  fst (fst (demo_r evs)) = None → portable_b bal bal_map pf_demo (snd (demo_r evs)) (snd (fst (demo_r evs))) = true →
  Portable bal bal_map pf_demo (snd (demo_r evs)) (snd (fst (demo_r evs))).
Proof.
  intros Hf Hc. destruct (demo_r evs) as [[x d'] h'] eqn:E. cbn [fst snd]. intros -> Hb. apply portable_b_ok; [|done].
  by eapply demo_sound.
Qed.
(** The generating unit and its machine once more. *)
Definition plant_evs := plant (u "A<B").
Example C54_example :
  Portable bal bal_map pf_demo (snd (demo_r plant_evs)) (snd (fst (demo_r plant_evs))) ∧ Sound bal heap_empty ∧ enc_ok (u "utf-8") ∧
  map fst (snd (fst (demo_r plant_evs))) = [u "g1"; u "m1"] ∧
  fst (fst (writes_to bal fint_demo (snd (fst (demo_r plant_evs))) (u "utf-8") (snd (demo_r plant_evs)))) = inl tt.
Proof.
  split; [apply demo_portable; compute_now|]. split; [apply Sound_empty|]. split; [right; by left|]. split; compute_now.
Qed.

(** A terminal and its connectivity node, with all of CIM15. *)
Definition B15 : pystr := u "{" ++ cim15_uri ++ u "#}".
Definition node_evs : list event :=
  flat B15 [obj "Terminal" "t1" [ref "Terminal.ConnectivityNode" "#n1"; att "ACDCTerminal.sequenceNumber" "2"];
            obj "ConnectivityNode" "n1" [att "IdentifiedObject.name" "A"]] ++ [EEnd root].
Definition node_r := reads B15 R cim15 cim15_map 20 pf_demo false root node_evs [] heap_empty.
Lemma portable15 evs r : reads B15 R cim15 cim15_map 20 pf_demo false root evs [] heap_empty = r →
  foreign_b B15 evs = true → compatible_doc_b B15 R cim15 cim15_map evs [] heap_empty = true →
  fst (fst r) = None → portable_b cim15 cim15_map pf_demo (snd r) (snd (fst r)) = true →
  Portable cim15 cim15_map pf_demo (snd r) (snd (fst r)).
Proof.
  intros E Hf Hc. destruct r as [[x d'] h']. cbn [fst snd]. intros -> Hb. apply portable_b_ok; [|exact Hb].
  refine (reads_sound cim15 cim15_map cim15_in B15 R 18 pf_demo false root evs [] heap_empty None d' h' (Sound_empty _) (dict_alive_nil _) _ _ E _).
  - by apply foreign_b_ok.
  - by apply compatible_doc_b_ok.
  - done.
Qed.
Example C54_default_example :
  Portable cim15 cim15_map pf_demo (snd node_r) (snd (fst node_r)) ∧ Sound cim15 heap_empty ∧
  map fst (snd (fst node_r)) = [u "t1"; u "n1"] ∧
  fst (fst (writes_to cim15 fint_demo (snd (fst node_r)) (u "utf-8") (snd node_r))) = inl tt.
Proof.
  split; [apply (portable15 node_evs node_r eq_refl); compute_now|]. split; [apply Sound_empty|]. split; compute_now.
Qed.

(** *** C55 *)
(** Collections other than those of one-to-many associations are not written,
    and so they come back empty. *)
Definition mm_listed (c : cls) : bool :=
  forallb (λ '(q, k), match k with PManyMany _ => existsb (str_eqb q) (c_many c) && existsb (str_eqb q) (map fst (c_params c)) | _ => true end) (c_props c).
Lemma mm_listed_true : all_tables (λ t _, forallb mm_listed t) = true.
Proof. vm_compute. reflexivity. Qed.
Lemma mm_listed_ok t pm ck q p : (t, pm) ∈ tables → lookup_prop t ck q = Some (PManyMany p) →
  ∃ c, c ∈ mro t ck ∧ q ∈ c_many c ∧ q ∈ map fst (c_params c).
Proof.
  intros Ht (c & Hc & Hp)%lookup_in_props. pose proof (all_tables_ok _ _ _ mm_listed_true Ht) as Hb. cbv beta in Hb.
  pose proof (all_rows_ok _ _ _ Hb (mro_sub _ _ _ Hc)) as Hm. apply (all_rows_ok _ _ _ Hm) in Hp. cbv beta iota in Hp.
  apply andb_true_iff in Hp as [H1%ReaderFacts.existsb_str H2%ReaderFacts.existsb_str]. eauto.
Qed.
Theorem C55_collections_exact t pm t14 t15 pf fint enc h d h' w hr f : (t, pm) ∈ tables → Portable t pm pf h d → Sound t hr → enc_ok enc →
  writes_to t fint d enc h = (inl tt, h', w) →
  ∃ src d' h2, parses_to (w_out w) src ∧
    cimread (S (S f)) pf cim14_uri t14 t15 src (Some (t, pm)) (Some cim15_uri) None hr = (None, d', h2) ∧
    loses_collections t h d h2 d' ∧
    ∀ o o' ck q p, copy_of d d' o o' → cls_of h o = Some ck → lookup_prop t ck q = Some (PManyMany p) →
      view h2 o' (Priv q) = Some (OL []).
Proof.
  intros Ht HP Hs He Hw. destruct (round_trip _ _ _ _ _ _ _ _ _ _ f Ht HP Hs He Hw) as (es & d' & h2 & Hp & Hr & Hc & Hl & Ha & Hs2).
  exists (doc_source es), d', h2. split_and!; [by eexists|by rewrite given_doc|done|].
  intros o o' ck q p Hco Hck Hq. destruct (mm_listed_ok _ _ _ _ _ Ht Hq) as (c & Hcm & Hm & Hpa).
  specialize (Hl o o' ck c q Hco Hck Hcm Hm Hpa). rewrite Hq in Hl. apply Hl. by intros p' [=].
Qed.
Print Assumptions C55_collections_exact.
(** Two ends of a transformer and the mesh impedance between them, linked by the
    many-to-many association of ToMeshImpedance and ToTransformerEnd. *)
Definition mesh_evs : list event :=
  flat Bb [obj "TransformerMeshImpedance" "z1" [att "TransformerMeshImpedance.x" "0.5"; ref "TransformerMeshImpedance.FromTransformerEnd" "#e1"];
           obj "TransformerEnd" "e1" []; obj "TransformerEnd" "e2" [ref "TransformerEnd.ToMeshImpedance" "#z1"]] ++ [EEnd root].
Example C55_example :
  Portable bal bal_map pf_demo (snd (demo_r mesh_evs)) (snd (fst (demo_r mesh_evs))) ∧
  fst (fst (writes_to bal fint_demo (snd (fst (demo_r mesh_evs))) (u "utf-8") (snd (demo_r mesh_evs)))) = inl tt ∧
  lookup_prop bal n_CIM15_CDPSM_Balanced_IEC61970_Wires_TransformerEnd_TransformerEnd n_ToMeshImpedance = Some (PManyMany n_ToTransformerEnd) ∧
  view (snd (demo_r mesh_evs)) 2 (Priv n_ToMeshImpedance) = Some (OL [VRef 0]) ∧
  view (snd (demo_r mesh_evs)) 0 (Priv n_ToTransformerEnd) = Some (OL [VRef 2]).
Proof. split; [apply demo_portable; compute_now|]. split_and!; compute_now. Qed.
Lemma lost_link t pm t14 t15 pf fint enc h d w hr f id o ck q p : (t, pm) ∈ tables → Portable t pm pf h d → Sound t hr → enc_ok enc →
  writes_to t fint d enc h = (inl tt, h, w) → assoc id d = Some (VRef o) → cls_of h o = Some ck → lookup_prop t ck q = Some (PManyMany p) →
  ∃ src d' h2 o', parses_to (w_out w) src ∧
    cimread (S (S f)) pf cim14_uri t14 t15 src (Some (t, pm)) (Some cim15_uri) None hr = (None, d', h2) ∧
    copy_of d d' o o' ∧ view h2 o' (Priv q) = Some (OL []).
Proof.
  intros Ht HP Hs He Hw Hid Hck Hq.
  destruct (round_trip _ _ _ _ _ _ _ _ _ _ f Ht HP Hs He Hw) as (es & d' & h2 & Hp & Hr & Hc & Hl & Ha & Hs2).
  destruct (cp_objects _ _ _ _ _ Hc _ _ Hid) as [o' Ho']. assert (copy_of d d' o o') as Hco by (by exists id).
  exists (doc_source es), d', h2, o'. split_and!; [by eexists|by rewrite given_doc|done|].
  destruct (mm_listed_ok _ _ _ _ _ Ht Hq) as (c & Hcm & Hm & Hpa).
  specialize (Hl o o' ck c q Hco Hck Hcm Hm Hpa). rewrite Hq in Hl. apply Hl. by intros p' [=].
Qed.
Theorem C55_survives_refuted : ∃ t pm pf fint h d w src d' h2 o o' q,
  (t, pm) ∈ tables ∧ Portable t pm pf h d ∧ writes_to t fint d (u "utf-8") h = (inl tt, h, w) ∧ parses_to (w_out w) src ∧
  cimread 20 pf cim14_uri (cim14, cim14_map) (cim15, cim15_map) src (Some (t, pm)) (Some cim15_uri) None heap_empty = (None, d', h2) ∧
  copy_of d d' o o' ∧ view h o (Priv q) = Some (OL [VRef 0]) ∧ view h2 o' (Priv q) = Some (OL []).
Proof.
  destruct C55_example as (HP & Hw & Hl & Hv & _). apply returns_keeps in Hw.
  assert (assoc (u "e2") (snd (fst (demo_r mesh_evs))) = Some (VRef 2)) as He by compute_now.
  assert (cls_of (snd (demo_r mesh_evs)) 2 = Some n_CIM15_CDPSM_Balanced_IEC61970_Wires_TransformerEnd_TransformerEnd) as Hc by compute_now.
  destruct (lost_link _ _ (cim14, cim14_map) (cim15, cim15_map) _ _ _ _ _ _ heap_empty 18 _ _ _ _ _ bal_in HP (Sound_empty _)
    (or_intror (or_introl eq_refl)) Hw He Hc Hl) as (src & d' & h2 & o' & H1 & H2 & H3 & H4).
  eexists bal, bal_map, pf_demo, fint_demo, _, _, _, src, d', h2, 2%nat, o', n_ToMeshImpedance.
  split; [exact bal_in|]. split; [exact HP|]. split; [exact Hw|]. split; [exact H1|]. split; [exact H2|]. split; [exact H3|].
  split; [exact Hv|exact H4].
Qed.
Print Assumptions C55_survives_refuted.

(** *** C56 *)
(** Objects are kept apart by their UUIDs only, whatever the keys were. *)
Definition decl_of (pmr : list (name * name)) (es : list entry) : list (pystr * name) :=
  flat_map (λ e, match assoc (en_class e) pmr with Some k => [(seen_attr (en_id e), k)] | None => [] end) es.
Lemma decl_of_app pmr a b : decl_of pmr (a ++ b) = decl_of pmr a ++ decl_of pmr b.
Proof. apply flat_map_app. Qed.
Section back.
Context (t : schema) (pm : list (name * name)) (Ht : (t, pm) ∈ tables) (fint : pystr → option Z) (enc : pystr) (Henc : enc_ok enc).
Context (h h' : heap) (d : dict) (w : writer) (Hw : writes_to t fint d enc h = (inl tt, h', w)).
Context (tr : schema) (pmr : list (name * name)) (Htr : (tr, pmr) ∈ tables) (x : xnode) (Hx : parse_ns (w_out w) = Some x).
Lemma back_entries : ∃ es, Writes_all t fint cim_ns h d es ∧ x = doc_tree cim_ns rdf_ns cim_decls (map norm_entry es).
Proof using Ht Henc Hw Hx.
  destruct (C52_well_formed_exact _ _ _ _ _ _ _ _ Ht Henc Hw) as (es & Hes & _ & _ & H). exists es. split; [done|]. by apply H.
Qed.
Context (f : nat) (pf : pystr → option pystr) (es : list entry) (Hes : Writes_all t fint cim_ns h d es).
Context (hr h2 : heap) (d' : dict) (Hwf : Wf hr).
Context (Hr : reads wbase rdf_ns tr pmr (S f) pf false (root_elem rdf_ns) (wevents (map norm_entry es)) [] hr = (None, d', h2)).
Notation back_decl := (decl_of pmr es).
Lemma back_declared : declared wbase rdf_ns pmr (wevents (map norm_entry es)) = back_decl.
Proof using.
  etransitivity; [exact (declared_flat cim_ns rdf_ns pmr (map norm_entry es) [EEnd (root_elem rdf_ns)])|].
  etransitivity; [apply (f_equal (app _)); exact (declared_root cim_ns rdf_ns pmr _ root_foreign)|].
  etransitivity; [apply app_nil_r|]. apply flat_map_map.
Qed.
Lemma back_foreign : foreign_root wbase (wevents (map norm_entry es)).
Proof using.
  apply flat_foreign. intros e [He%elem_of_list_singleton|He%elem_of_list_singleton] _; [done|]. injection He as ->. exact root_foreign.
Qed.
Lemma writes_exported o e ck : Writes t fint cim_ns h o e → assoc (en_class e) pmr = Some ck → exported t pmr h o (seen_attr (en_id e)) ck.
Proof using.
  intros (k & top & below & as_ & es' & rs & Hc & Hf & _ & Hn & Hs & _) Ha. exists k, (en_id e). split_and!; try done. by rewrite <- Hn.
Qed.
Lemma exported_writes o e id ck : Writes t fint cim_ns h o e → exported t pmr h o id ck → id = seen_attr (en_id e) ∧ assoc (en_class e) pmr = Some ck.
Proof using.
  intros (k & top & below & as_ & es' & rs & Hc & Hf & _ & Hn & Hs & _) (c & s & Hc2 & Hf2 & Hs2 & -> & Ha).
  rewrite Hc in Hc2. injection Hc2 as Hk. rewrite Hk, Hf2 in Hf. injection Hf as ->. pose proof (sees_det _ _ _ _ _ _ Hs Hs2) as [= ->].
  by rewrite Hn.
Qed.
Lemma back_decl_in id ck : (id, ck) ∈ back_decl ↔ ∃ k o, (k, VRef o) ∈ d ∧ exported t pmr h o id ck.
Proof using Hes.
  unfold decl_of. split.
  - intros Hin%elem_of_list_In%in_flat_map. destruct Hin as (e & He%elem_of_list_In & Hin).
    apply elem_of_list_lookup in He as [i Hi]. eapply Forall2_lookup_r in Hes as ([k v] & Hd & o & Hv & Hwr); [|done]. cbn [snd] in Hv. subst v.
    exists k, o. split; [by eapply elem_of_list_lookup_2|]. destruct (assoc (en_class e) pmr) as [ck'|] eqn:E; [|done].
    destruct Hin as [[= <- <-]|[]]. by apply writes_exported.
  - intros (k & o & Hin & Hex). apply elem_of_list_lookup in Hin as [i Hi]. eapply Forall2_lookup_l in Hes as (e & He & o' & Ho' & Hwr); [|done]. cbn [snd] in Ho'. injection Ho' as <-.
    apply elem_of_list_In, in_flat_map. exists e. split; [by eapply elem_of_list_In, elem_of_list_lookup_2|].
    destruct (exported_writes _ _ _ _ Hwr Hex) as [-> ->]. by left.
Qed.
Lemma back_keys : NoDup (map fst d') ∧ ∀ id, id ∈ map fst d' ↔ ∃ k o ck, (k, VRef o) ∈ d ∧ exported t pmr h o id ck.
Proof using Hes Hr Hwf Htr.
  destruct (C24_keys _ _ _ _ _ _ _ _ _ _ _ _ _ Htr Hwf back_foreign Hr) as [Hk Hin]. rewrite back_declared in Hk, Hin. cbn [map] in Hk. split.
  - rewrite Hk. clear. assert (∀ new ks, NoDup ks → NoDup (add_keys ks new)) as H; [|apply H; constructor].
    induction new as [|k new IH]; intros ks Hn; cbn [add_keys]; [done|]. destruct (existsb (str_eqb k) ks) eqn:E; apply IH; [done|].
    apply NoDup_app. split_and!; [done| |apply NoDup_singleton]. intros k' Hk' ->%elem_of_list_singleton.
    apply ReaderFacts.existsb_str in Hk'. congruence.
  - intros id. rewrite Hin. split.
    + intros [Hn%elem_of_nil|Hid]; [done|]. apply elem_of_list_fmap in Hid as ([i ck] & -> & Hid).
      apply back_decl_in in Hid as (k & o & ? & ?). eauto 6.
    + intros (k & o & ck & Hd & Hex). right. apply elem_of_list_fmap. exists (id, ck). split; [done|]. apply back_decl_in. eauto.
Qed.
Lemma back_object pre k o post id ck : d = pre ++ (k, VRef o) :: post → exported t pmr h o id ck →
  (∀ k' o' ck', (k', VRef o') ∈ post → ¬ exported t pmr h o' id ck') →
  ∃ o2, assoc id d' = Some (VRef o2) ∧ cls_of hr o2 = None ∧ cls_of h2 o2 = Some ck.
Proof using Hes Hr Hwf Htr.
  intros Ed Hex Hpost.
  destruct (C25_classes _ _ _ _ _ _ _ _ _ _ _ _ _ id ck Htr Hwf back_foreign Hr) as (o2 & H1 & H2 & H3 & _); [|eauto].
  unfold declared_class. rewrite back_declared. revert Hes. rewrite Ed. unfold Writes_all. rewrite Forall2_app_inv_l.
  intros (es1 & es2 & H1 & H2 & ->). apply Forall2_cons_inv_l in H2 as (e & es3 & (o' & Ho' & Hwr) & H3 & ->). cbn [snd] in Ho'. injection Ho' as <-.
  destruct (exported_writes _ _ _ _ Hwr Hex) as [-> Ha].
  rewrite decl_of_app. change (e :: es3) with ([e] ++ es3). rewrite decl_of_app, !reverse_app, !assoc_app.
  destruct (assoc (seen_attr (en_id e)) (reverse (decl_of pmr es3))) as [ck2|] eqn:E2.
  - exfalso. apply assoc_reverse_in in E2. apply elem_of_list_In, in_flat_map in E2 as (e2 & He2%elem_of_list_In & Hin).
    apply elem_of_list_lookup in He2 as [i Hi]. eapply Forall2_lookup_r in H3 as ([k' v] & Hd & o' & Hv & Hwr2); [|done]. cbn [snd] in Hv. subst v.
    destruct (assoc (en_class e2) pmr) as [ck3|] eqn:E3; [|done]. destruct Hin as [Heq|[]]. pose proof (f_equal fst Heq) as Hid. cbn [fst] in Hid.
    apply (Hpost k' o' ck3); [by eapply elem_of_list_lookup_2|]. rewrite <- Hid. by apply writes_exported.
  - unfold decl_of. cbn [flat_map]. rewrite Ha. cbn [app reverse rev_append assoc]. by rewrite str_eqb_refl.
Qed.
Lemma back_value id v : assoc id d' = Some v → ∃ k o o' ck, (k, VRef o) ∈ d ∧ exported t pmr h o id ck ∧
  v = VRef o' ∧ cls_of hr o' = None ∧ cls_of h2 o' = Some ck.
Proof using Hes Hr Hwf Htr.
  intros Hv. assert (id ∈ map fst d') as Hid by (apply elem_of_list_fmap; exists (id, v); split; [done|by apply assoc_in]).
  apply (proj2 back_keys) in Hid as (k & o & ck & Hd & Hex).
  assert ((id, ck) ∈ back_decl) as Hin by (apply back_decl_in; eauto).
  destruct (assoc id (reverse back_decl)) as [ck'|] eqn:E.
  2:{ exfalso. apply BlankFacts.assoc_None in E. apply E. apply elem_of_list_fmap. exists (id, ck). split; [done|]. by apply elem_of_reverse. }
  destruct (C25_classes _ _ _ _ _ _ _ _ _ _ _ _ _ id ck' Htr Hwf back_foreign Hr) as (o2 & H1 & H2 & H3 & _).
  { unfold declared_class. by rewrite back_declared. }
  apply assoc_reverse_in in E. apply back_decl_in in E as (k' & o' & Hd' & Hex'). exists k', o', o2, ck'. split_and!; try done.
  rewrite Hv in H1. by injection H1.
Qed.
Lemma back_merged pre k1 o1 mid k2 o2 post i : d = pre ++ (k1, VRef o1) :: mid ++ (k2, VRef o2) :: post →
  sees t h o1 (u "UUID") i → sees t h o2 (u "UUID") i → (length d' < length d)%nat.
Proof using Hes Hr Hwf Htr.
  intros Ed H1 H2. destruct back_keys as [Hn Hin].
  assert (∃ ids, length ids < length d ∧ ∀ k o id ck, (k, VRef o) ∈ d → exported t pmr h o id ck → id ∈ ids)%nat as (ids & Hl & Hids).
  { assert (∀ d0 es0, Writes_all t fint cim_ns h d0 es0 → length d0 = length es0 ∧ ∀ k o id ck, (k, VRef o) ∈ d0 → exported t pmr h o id ck →
       id ∈ map (λ e, seen_attr (en_id e)) es0) as Hall.
    { intros d0 es0 H0. split; [by eapply Forall2_length|]. intros k o id ck Hd Hex. apply elem_of_list_lookup in Hd as [j Hj].
      eapply Forall2_lookup_l in H0 as (e & He & o' & Ho' & Hwr); [|done]. cbn [snd] in Ho'. injection Ho' as <-. destruct (exported_writes _ _ _ _ Hwr Hex) as [-> _].
      apply elem_of_list_fmap. exists e. split; [done|]. by eapply elem_of_list_lookup_2. }
    pose proof Hes as Hes'. rewrite Ed in Hes'. apply Forall2_app_inv_l in Hes' as (es1 & es2 & W1 & W2 & _).
    apply Forall2_cons_inv_l in W2 as (e1 & es3 & (o1' & Ho1 & Hw1) & W3 & _). cbn [snd] in Ho1. injection Ho1 as <-.
    pose proof W3 as W3'. apply Forall2_app_inv_l in W3' as (es4 & es5 & W4 & W5 & E5).
    apply Forall2_cons_inv_l in W5 as (e2 & es6 & (o2' & Ho2 & Hw2) & W6 & ->). cbn [snd] in Ho2. injection Ho2 as <-.
    assert (en_id e1 = en_id e2) as He.
    { destruct Hw1 as (? & ? & ? & ? & ? & ? & _ & _ & _ & _ & S1 & _). destruct Hw2 as (? & ? & ? & ? & ? & ? & _ & _ & _ & _ & S2 & _).
      pose proof (sees_det _ _ _ _ _ _ S1 H1) as <-. by pose proof (sees_det _ _ _ _ _ _ S2 H2) as [= ->]. }
    destruct (Hall _ _ W1) as [L1 A1]. destruct (Hall _ _ W3) as [L3 A3].
    exists (map (λ e, seen_attr (en_id e)) es1 ++ map (λ e, seen_attr (en_id e)) es3). split.
    - rewrite app_length, !map_length, <- L1, <- L3, Ed, !app_length. cbn [length]. rewrite app_length. cbn [length]. lia.
    - intros k o id ck Hd Hex. rewrite Ed in Hd. apply elem_of_app. apply elem_of_app in Hd as [Hd|[Hd|Hd]%elem_of_cons].
      + left. by eapply A1.
      + injection Hd as -> ->. right. destruct (exported_writes _ _ _ _ Hw1 Hex) as [-> _]. rewrite He, E5. apply elem_of_list_fmap. exists e2.
        split; [done|]. apply elem_of_app. right. left.
      + right. by eapply A3. }
  rewrite <- (map_length fst d'). eapply Nat.le_lt_trans; [|exact Hl]. apply submseteq_length, NoDup_submseteq; [done|].
  intros id Hid. apply Hin in Hid as (k & o & ck & Hd & Hex). by eapply Hids.
Qed.
End back.
Theorem C56_by_uuid_exact t pm tr pmr t14 t15 pf fint enc h d h' w src hr f d' h2 : (t, pm) ∈ tables → (tr, pmr) ∈ tables → enc_ok enc →
  writes_to t fint d enc h = (inl tt, h', w) → parses_to (w_out w) src → Wf hr →
  cimread (S f) pf cim14_uri t14 t15 src (Some (tr, pmr)) (Some cim15_uri) None hr = (None, d', h2) →
  NoDup (map fst d') ∧ (∀ id, id ∈ map fst d' ↔ ∃ k o ck, (k, VRef o) ∈ d ∧ exported t pmr h o id ck) ∧
  (* of several objects with the same UUID the last one counts *)
  ∀ pre k o post id ck, d = pre ++ (k, VRef o) :: post → exported t pmr h o id ck →
    (∀ k' o' ck', (k', VRef o') ∈ post → ¬ exported t pmr h o' id ck') →
    ∃ o2, assoc id d' = Some (VRef o2) ∧ cls_of hr o2 = None ∧ cls_of h2 o2 = Some ck.
Proof.
  intros Ht Htr He Hw (x & Hx & ->) Hwf Hr.
  destruct (back_entries t pm Ht fint enc He h h' d w Hw x Hx) as (es & Hes & ->).
  change (Source _ false) with (doc_source (map norm_entry es)) in Hr. rewrite (given_doc _ _ _ _ _ _ _ _ _ Htr) in Hr.
  cbn [default from_option] in Hr. destruct (back_keys t fint h d tr pmr Htr f pf es Hes hr h2 d' Hwf Hr) as [H1 H2].
  split; [done|]. split; [done|]. exact (back_object t fint h d tr pmr Htr f pf es Hes hr h2 d' Hwf Hr).
Qed.
Print Assumptions C56_by_uuid_exact.
(** Objects with equal UUIDs are not all kept. *)
Theorem C56_merged t pm tr pmr t14 t15 pf fint enc h d h' w src hr f d' h2 pre k1 o1 mid k2 o2 post i : (t, pm) ∈ tables → (tr, pmr) ∈ tables → enc_ok enc →
  writes_to t fint d enc h = (inl tt, h', w) → parses_to (w_out w) src → Wf hr →
  cimread (S f) pf cim14_uri t14 t15 src (Some (tr, pmr)) (Some cim15_uri) None hr = (None, d', h2) →
  d = pre ++ (k1, VRef o1) :: mid ++ (k2, VRef o2) :: post → sees t h o1 (u "UUID") i → sees t h o2 (u "UUID") i →
  (length d' < length d)%nat.
Proof.
  intros Ht Htr He Hw (x & Hx & ->) Hwf Hr Ed H1 H2.
  destruct (back_entries t pm Ht fint enc He h h' d w Hw x Hx) as (es & Hes & ->).
  change (Source _ false) with (doc_source (map norm_entry es)) in Hr. rewrite (given_doc _ _ _ _ _ _ _ _ _ Htr) in Hr.
  exact (back_merged t fint h d tr pmr Htr f pf es Hes hr h2 d' Hwf Hr _ _ _ _ _ _ _ _ Ed H1 H2).
Qed.
Print Assumptions C56_merged.
(** Two generating units made without UUID. *)
Definition make (S : schema) (ck : name) (kw : list (name * val)) (h : heap) : heap := snd (construct S 20 ck [] kw h).
Definition units_h : heap :=
  make bal n_CIM15_CDPSM_Balanced_IEC61970_Generation_Production_GeneratingUnit_GeneratingUnit []
    (make bal n_CIM15_CDPSM_Balanced_IEC61970_Generation_Production_GeneratingUnit_GeneratingUnit [] heap_empty).
Definition units_d : dict := [(u "a", VRef 0); (u "b", VRef 1)].
Definition units_w : writer := snd (writes_to bal fint_demo units_d (u "utf-8") units_h).
Definition units_src : source := Source (match parse_ns (w_out units_w) with Some x => xevents true x | None => [] end) false.
Lemma triple_eq {A B C} (r : A * B * C) a b : fst (fst r) = a → snd (fst r) = b → r = (a, b, snd r).
Proof. destruct r as [[a' b'] c]. cbn [fst snd]. by intros -> ->. Qed.
Lemma parsed_ok w src x : parse_ns (w_out w) = Some x → src = Source (xevents true x) false → parses_to (w_out w) src.
Proof. intros H ->. by exists x. Qed.
Theorem C56_keeps_all_refuted : ∃ t pm pf fint h d w src d' h2, (t, pm) ∈ tables ∧
  writes_to t fint d (u "utf-8") h = (inl tt, h, w) ∧ parses_to (w_out w) src ∧
  cimread 20 pf cim14_uri (cim14, cim14_map) (cim15, cim15_map) src (Some (t, pm)) (Some cim15_uri) None heap_empty = (None, d', h2) ∧
  map fst d = [u "a"; u "b"] ∧ map fst d' = [[]].
Proof.
  assert (writes_to bal fint_demo units_d (u "utf-8") units_h = (inl tt, units_h, units_w)) as Hw by (apply returns_keeps; compute_now).
  assert (parses_to (w_out units_w) units_src) as Hp.
  { apply (parsed_ok _ _ (match parse_ns (w_out units_w) with Some x => x | None => XText [] end)); compute_now. }
  pose proof (triple_eq (cimread 20 pf_demo cim14_uri (cim14, cim14_map) (cim15, cim15_map) units_src (Some (bal, bal_map)) (Some cim15_uri) None heap_empty)
    None [([], VRef 1)]) as Hr.
  eexists bal, bal_map, pf_demo, fint_demo, units_h, units_d, units_w, units_src, [([], VRef 1)], _. split; [exact bal_in|].
  split; [exact Hw|]. split; [exact Hp|]. split; [apply Hr; compute_now|]. split; compute_now.
Qed.
Print Assumptions C56_keeps_all_refuted.

(** *** C57 *)
(** The namespace is always CIM15's: whatever the objects were, a reader that is
    not told better makes objects of the CIM15 classes of the same names, and
    drops those for which there is none. *)
Definition of_package (p : string) (ck : name) : bool := str_eqb (take (String.length p) ck) (u p).
Lemma packages_true : forallb (λ k, of_package "CIM15." k) (map snd cim15_map) && forallb (λ c, of_package "CIM14." (c_key c)) cim14 = true.
Proof. vm_compute. reflexivity. Qed.
Lemma package_15 n k : assoc n cim15_map = Some k → of_package "CIM15." k = true.
Proof.
  intros Ha%assoc_in. pose proof packages_true as [H _]%andb_true_iff. rewrite forallb_forall in H. apply H, elem_of_list_In, elem_of_list_fmap.
  by exists (n, k).
Qed.
Lemma package_14 ck c : find_cls cim14 ck = Some c → of_package "CIM14." ck = true.
Proof.
  intros Hf. apply find_cls_in in Hf as [Hf <-]. pose proof packages_true as [_ H]%andb_true_iff.
  rewrite forallb_forall in H. by apply (H c), elem_of_list_In.
Qed.
Lemma packages_apart ck : of_package "CIM15." ck = true → of_package "CIM14." ck = true → False.
Proof. unfold of_package. rewrite !str_eqb_eq. intros H1 H2. change (String.length "CIM14.") with (String.length "CIM15.") in H2. rewrite H1 in H2. revert H2. by vm_compute. Qed.
Theorem C57_cim15_exact t pm pf fint enc h d h' w src hr f d' h2 : (t, pm) ∈ tables → enc_ok enc →
  writes_to t fint d enc h = (inl tt, h', w) → parses_to (w_out w) src → Wf hr →
  cimread (S f) pf cim14_uri (cim14, cim14_map) (cim15, cim15_map) src None None None hr = (None, d', h2) →
  NoDup (map fst d') ∧
  (∀ id, id ∈ map fst d' ↔ ∃ k o ck, (k, VRef o) ∈ d ∧ exported t cim15_map h o id ck) ∧
  (∀ id v, assoc id d' = Some v → ∃ k o o' ck, (k, VRef o) ∈ d ∧ exported t cim15_map h o id ck ∧
     v = VRef o' ∧ cls_of h2 o' = Some ck ∧ of_package "CIM15." ck = true ∧ find_cls cim14 ck = None).
Proof.
  intros Ht He Hw (x & Hx & ->) Hwf Hr.
  destruct (back_entries t pm Ht fint enc He h h' d w Hw x Hx) as (es & Hes & ->).
  change (Source _ false) with (doc_source (map norm_entry es)) in Hr. rewrite default_doc in Hr.
  cbn [default from_option] in Hr. destruct (back_keys t fint h d _ _ cim15_in f pf es Hes hr h2 d' Hwf Hr) as [H1 H2].
  split; [done|]. split; [done|]. intros id v Hv.
  destruct (back_value t fint h d _ _ cim15_in f pf es Hes hr h2 d' Hwf Hr id v Hv) as (k & o & o' & ck & Hd & Hex & -> & _ & Hc).
  exists k, o, o', ck. split_and!; try done.
  - destruct Hex as (c & s & _ & _ & _ & _ & Ha). by eapply package_15.
  - destruct (find_cls cim14 ck) as [c|] eqn:E; [|done]. exfalso. destruct Hex as (c' & s & _ & _ & _ & _ & Ha).
    eapply packages_apart; [by eapply package_15|by eapply package_14].
Qed.
Print Assumptions C57_cim15_exact.
(** A connectivity node of CIM14. *)
Definition node_h : heap := make topo n_CIM14_CPSM_Topology_Core_ConnectivityNode_ConnectivityNode [(n_UUID, VStr (u "c1"))] heap_empty.
Definition node_d : dict := [(u "c1", VRef 0)].
Definition node_w : writer := snd (writes_to topo fint_demo node_d (u "utf-8") node_h).
Definition node_src : source := Source (match parse_ns (w_out node_w) with Some x => xevents true x | None => [] end) false.
Notation node_back := (cimread 20 pf_demo cim14_uri (cim14, cim14_map) (cim15, cim15_map) node_src None None None heap_empty).
Lemma node_facts : fst (fst node_back) = None ∧ snd (fst node_back) = [(u "c1", VRef 0)] ∧
  cls_of (snd node_back) 0 = Some n_CIM15_IEC61970_Core_ConnectivityNode_ConnectivityNode.
Proof. split; [compute_now|]. split; compute_now. Qed.
Theorem C57_survives_refuted : ∃ t pm pf fint h d w src d' h2 o o', (t, pm) ∈ tables ∧
  writes_to t fint d (u "utf-8") h = (inl tt, h, w) ∧ parses_to (w_out w) src ∧
  cimread 20 pf cim14_uri (cim14, cim14_map) (cim15, cim15_map) src None None None heap_empty = (None, d', h2) ∧
  copy_of d d' o o' ∧ cls_of h o = Some n_CIM14_CPSM_Topology_Core_ConnectivityNode_ConnectivityNode ∧
  cls_of h2 o' = Some n_CIM15_IEC61970_Core_ConnectivityNode_ConnectivityNode.
Proof.
  assert (writes_to topo fint_demo node_d (u "utf-8") node_h = (inl tt, node_h, node_w)) as Hw by (apply returns_keeps; compute_now).
  assert (parses_to (w_out node_w) node_src) as Hp.
  { apply (parsed_ok _ _ (match parse_ns (w_out node_w) with Some x => x | None => XText [] end)); compute_now. }
  destruct node_facts as (H1 & H2 & H3). pose proof (triple_eq _ _ _ H1 H2) as Hr.
  eexists topo, topo_map, pf_demo, fint_demo, node_h, node_d, node_w, node_src, [(u "c1", VRef 0)], _, 0%nat, 0%nat. split; [exact topo_in|].
  split; [exact Hw|]. split; [exact Hp|]. split; [exact Hr|]. split; [exists (u "c1"); split; reflexivity|]. split; [compute_now|exact H3].
Qed.
Print Assumptions C57_survives_refuted.
