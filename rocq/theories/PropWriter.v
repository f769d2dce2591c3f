(** Properties of cimwrite (PyCIM/RDFXMLWriter.py). *)
From Coq Require Import String ZArith.
From stdpp Require Import prelude gmap.
From Verif Require Import PyStr PyHeap Schema Assoc AssocSpec Reader ReaderSpec XmlWriter XmlSpec XmlCalls.
From Verif Require Import XmlDocFacts WriteSpec CimWriter WriteFacts WriteDocFacts WriteTables Names TabCIM15 Tables ReadDemo.

Definition cim_ns : pystr := u "http://iec.ch/TC57/2010/CIM-schema-cim15#".
Definition rdf_ns : pystr := u "http://www.w3.org/1999/02/22-rdf-syntax-ns#".
Definition cim_decls : nsenv := [(u "cim", cim_ns); (u "rdf", rdf_ns)].
(** cimwrite with the namespace it imports (RDFXMLWriter.py:25). *)
Definition writes_to (t : schema) (fint : pystr → option Z) (d : dict) (enc : pystr) (h : heap) : (unit + exn) * heap * writer :=
  cimwrite t fint cim15_uri cim15_prefix d enc h.

Lemma ns_cim15 : ns_cim cim15_uri = cim_ns.
Proof. vm_compute. reflexivity. Qed.
Lemma uri_chars : forallb attr_char cim15_uri = true.
Proof. vm_compute. reflexivity. Qed.
Lemma writes_spec t fint d enc h h' w :
  writes_to t fint d enc h = (inl tt, h', w) ↔
  h' = h ∧ ∃ es, Writes_all t fint cim_ns h d es ∧ document true enc (root_call cim15_uri (u "cim") es) = (inl tt, w).
Proof.
  unfold writes_to. change cim15_prefix with (u "cim"). rewrite cimwrite_spec, ns_cim15. done.
Qed.

(** *** C51 *)
(** A document is written exactly when every value of the dictionary is an
    object that can be described, and the document then is: the root with the
    two namespace declarations, and for every dictionary entry, in order, the
    element described by [Writes]. *)
Theorem C51_document t pm fint d enc h h' w : (t, pm) ∈ tables → enc_ok enc →
  writes_to t fint d enc h = (inl tt, h', w) →
  ∃ es, Writes_all t fint cim_ns h d es ∧
    ((∀ e, e ∈ es → chars_ok data_char attr_char e) → parse_ns (w_out w) = Some (doc_tree cim_ns rdf_ns cim_decls es)).
Proof.
  intros Ht Henc H. apply writes_spec in H as (-> & es & Hes & Ed). exists es. split; [done|]. intros Hc.
  destruct (written_doc cim15_uri enc es uri_chars Henc) as (w' & Ed' & _ & P & _); [by eapply writes_all_names|].
  rewrite Ed in Ed'. injection Ed' as <-. rewrite P by (intros e He; by apply chars_ok_xml, Hc).
  rewrite ns_cim15. unfold decls. rewrite ns_cim15. f_equal. f_equal. rewrite <- (map_id es) at 2. apply map_ext_in.
  intros e He%elem_of_list_In. by apply norm_entry_id, Hc.
Qed.
Print Assumptions C51_document.
Theorem C51_returns t fint d enc h : (∃ h' w, writes_to t fint d enc h = (inl tt, h', w)) ↔ ∃ es, Writes_all t fint cim_ns h d es.
Proof.
  split.
  - intros (h' & w & H). apply writes_spec in H as (_ & es & Hes & _). eauto.
  - intros (es & Hes). destruct (render_document true enc (root_call cim15_uri (u "cim") es) eq_refl) as (w & E & _).
    exists h, w. apply writes_spec. eauto.
Qed.
Print Assumptions C51_returns.
(** The description is unique. *)
Lemma listed_det {A B} (P : A → list B → Prop) l r r' : (∀ x r r', P x r → P x r' → r = r') → listed P l r → listed P l r' → r = r'.
Proof.
  intros HP H. revert r'. induction H as [|x l r1 r2 H1 H2 IH]; intros r'; inversion 1; subst; [done|]. f_equal; [by eapply HP|by apply IH].
Qed.
Theorem C51_unique t fint cim h d es es' : Writes_all t fint cim h d es → Writes_all t fint cim h d es' → es = es'.
Proof.
  assert (∀ o c a r r', attr_out t fint h o c a r → attr_out t fint h o c a r' → r = r') as Ha.
  { intros o c a r r' H H'.
    destruct H as [[? ->]|(? & v & dv & Hs & Hd & H)], H' as [[? ->]|(? & v' & dv' & Hs' & Hd' & H')]; try done.
    rewrite (sees_det _ _ _ _ _ _ Hs' Hs) in H'. rewrite Hd in Hd'. injection Hd' as <-.
    destruct H as [[? ->]|(? & s & Hx & ->)], H' as [[? ->]|(? & s' & Hx' & ->)]; try done. by rewrite (text_of_det _ _ _ Hx Hx'). }
  assert (∀ o c a r r', enum_out t cim h o c a r → enum_out t cim h o c a r' → r = r') as He.
  { intros o c a r r' H H'.
    destruct H as [[? ->]|(dt & v & s & ? & Hs & Hx & ->)], H' as [[? ->]|(dt' & v' & s' & ? & Hs' & Hx' & ->)]; try congruence.
    rewrite (sees_det _ _ _ _ _ _ Hs' Hs) in Hx'. rewrite (text_of_det _ _ _ Hx' Hx). congruence. }
  assert (∀ o c p r r', ref_out t h o c p r → ref_out t h o c p r' → r = r') as Hr.
  { intros o c p r r' H H'.
    destruct H as [[? ->]|(? & [[Hs ->]|(x & i & s & Hs & Hi & Hx & ->)])], H' as [[? ->]|(? & [[Hs' ->]|(x' & i' & s' & Hs' & Hi' & Hx' & ->)])]; try done;
      pose proof (sees_det _ _ _ _ _ _ Hs Hs') as E; try done.
    injection E as <-. rewrite (sees_det _ _ _ _ _ _ Hi' Hi) in Hx'. by rewrite (text_of_det _ _ _ Hx' Hx). }
  intros H. revert es'. induction H as [|kv e d es (o & Eo & Hw) Hd IH]; intros es' H'; [by inversion H'|].
  apply Forall2_cons_inv_l in H' as (e' & es'' & (o' & Eo' & Hw') & Hes' & ->). f_equal; [|by apply IH].
  rewrite Eo in Eo'. injection Eo' as <-.
  destruct Hw as (k & top & below & as_ & es1 & rs & Hc & Hf & Em & Hn & Hs & H1 & H2 & H3 & Hp).
  destruct Hw' as (k' & top' & below' & as_' & es1' & rs' & Hc' & Hf' & Em' & Hn' & Hs' & H1' & H2' & H3' & Hp').
  assert (k' = k) as -> by congruence. rewrite Em in Em'. apply app_inj_2 in Em' as [<- _]; [|done].
  pose proof (sees_det _ _ _ _ _ _ Hs Hs') as [= Hid].
  assert (as_ = as_') as <-. { eapply listed_det; [|exact H1|exact H1']. intros c r r'. apply listed_det. intros a. apply Ha. }
  assert (es1 = es1') as <-. { eapply listed_det; [|exact H2|exact H2']. intros c r r'. apply listed_det. intros a. apply He. }
  assert (rs = rs') as <-. { eapply listed_det; [|exact H3|exact H3']. intros c r r'. apply listed_det. intros a. apply Hr. }
  destruct e, e'. cbn in *. congruence.
Qed.
Print Assumptions C51_unique.
(** A generating unit and its machine. *)
Definition fint_demo (r : pystr) : option Z := if str_eqb r (u "0.0") then Some 0%Z else None.
Definition plant (nm : pystr) : list event :=
  flat Bb [obj "GeneratingUnit" "g1" [ref "GeneratingUnit.genControlSource" "http://iec.ch/TC57/2010/CIM-schema-cim15#GeneratorControlSource.offAGC";
             Pel (u "IdentifiedObject.name") [] (Some nm); att "GeneratingUnit.initialP" "3.5"];
           obj "SynchronousMachine" "m1" [ref "SynchronousMachine.GeneratingUnit" "#g1"]] ++ [EEnd root].
Definition plant_entries : list entry := [
  Entry (u "GeneratingUnit") (u "g1")
    [PText (u "IdentifiedObject.name") (u "A<B"); PText (u "GeneratingUnit.initialP") (u "3.5");
     PResource (u "GeneratingUnit.genControlSource") (u "http://iec.ch/TC57/2010/CIM-schema-cim15#GeneratorControlSource.offAGC")];
  Entry (u "SynchronousMachine") (u "m1")
    [PResource (u "SynchronousMachine.operatingMode") (u "http://iec.ch/TC57/2010/CIM-schema-cim15#SynchronousMachineOperatingMode.condenser");
     PResource (u "SynchronousMachine.type") (u "http://iec.ch/TC57/2010/CIM-schema-cim15#SynchronousMachineType.condenser");
     PResource (u "SynchronousMachine.GeneratingUnit") (u "#g1")]].
Definition chars_b (P Q : N → bool) (e : entry) : bool :=
  forallb Q (en_id e) && forallb (λ p, match p with PText _ s => forallb P s | PResource _ s => forallb Q s end) (en_props e).
Lemma chars_b_ok P Q e : chars_b P Q e = true → chars_ok P Q e.
Proof.
  unfold chars_b. rewrite andb_true_iff. intros [H1 H2]. rewrite forallb_forall in H2. split; [done|].
  intros p Hp%elem_of_list_In. specialize (H2 p Hp). by destruct p.
Qed.
Example C51_example :
  (let '(x, d', h') := reads Bb R bal bal_map 20 pf_demo false root (plant (u "A<B")) [] heap_empty in
   let '(r, h2, w) := writes_to bal fint_demo d' (u "utf-8") h' in
   x = None ∧ r = inl tt ∧ parse_ns (w_out w) = Some (doc_tree cim_ns rdf_ns cim_decls plant_entries)) ∧
  ∀ e, e ∈ plant_entries → chars_ok data_char attr_char e.
Proof.
  split; [vm_compute; by split_and!|]. intros e He. apply chars_b_ok.
  assert (forallb (chars_b data_char attr_char) plant_entries = true) as H by (vm_compute; reflexivity).
  rewrite forallb_forall in H. by apply H, elem_of_list_In.
Qed.

(** *** C52 *)
(** What is written is well-formed exactly when all strings consist of XML
    characters; a reader then sees the entries with line ends (and the white
    space in attribute values) normalised. *)
Theorem C52_well_formed_exact t pm fint d enc h h' w : (t, pm) ∈ tables → enc_ok enc →
  writes_to t fint d enc h = (inl tt, h', w) →
  ∃ es, Writes_all t fint cim_ns h d es ∧
    ((∃ x, parse_ns (w_out w) = Some x) ↔ ∀ e, e ∈ es → chars_ok xml_char xml_char e) ∧
    ((∃ n, parse (w_out w) = Some n) ↔ ∀ e, e ∈ es → chars_ok xml_char xml_char e) ∧
    ∀ x, parse_ns (w_out w) = Some x → x = doc_tree cim_ns rdf_ns cim_decls (map norm_entry es).
Proof.
  intros Ht Henc H. apply writes_spec in H as (-> & es & Hes & Ed). exists es. split; [done|].
  destruct (written_doc cim15_uri enc es uri_chars Henc) as (w' & Ed' & _ & P & P2); [by eapply writes_all_names|].
  rewrite Ed in Ed'. injection Ed' as <-. unfold decls in P. rewrite !ns_cim15 in P.
  assert (∀ x, parse_ns (w_out w) = Some x → ∃ n, parse (w_out w) = Some n) as Hp.
  { intros x. unfold parse_ns. destruct (parse (w_out w)); [eauto|done]. }
  split_and!.
  - split; [intros [x Hx]; destruct (Hp _ Hx) as [n Hn]; by eapply P2|]. intros Hc. rewrite P by done. eauto.
  - split; [intros [n Hn]; by eapply P2|]. intros Hc. eapply Hp. by apply P.
  - intros x Hx. destruct (Hp _ Hx) as [n Hn]. rewrite P in Hx by (by eapply P2). by injection Hx as <-.
Qed.
Print Assumptions C52_well_formed_exact.
Lemma returns_keeps t fint d enc h : fst (fst (writes_to t fint d enc h)) = inl tt →
  writes_to t fint d enc h = (inl tt, h, snd (writes_to t fint d enc h)).
Proof.
  intros H. pose proof (cimwrite_keeps t fint cim15_uri cim15_prefix d enc h) as Hk. unfold writes_to in *.
  destruct (cimwrite t fint cim15_uri cim15_prefix d enc h) as [[x h2] w]. cbn [fst snd] in *. by subst.
Qed.
(** A name with a control character. *)
Definition ctrl_plant := reads Bb R bal bal_map 20 pf_demo false root (plant [1%N]) [] heap_empty.
Theorem C52_well_formed_refuted : ∃ t pm fint d h w,
  (t, pm) ∈ tables ∧ writes_to t fint d (u "utf-8") h = (inl tt, h, w) ∧ parse (w_out w) = None.
Proof.
  exists bal, bal_map, fint_demo, (snd (fst ctrl_plant)), (snd ctrl_plant), (snd (writes_to bal fint_demo (snd (fst ctrl_plant)) (u "utf-8") (snd ctrl_plant))).
  split; [exact bal_in|]. split; [apply returns_keeps|]; vm_compute; reflexivity.
Qed.
Print Assumptions C52_well_formed_refuted.
(** A line end in a name is fine, in an identifier it becomes a space. *)
Example C52_example :
  (let '(x, d', h') := reads Bb R bal bal_map 20 pf_demo false root (plant [65; 13; 10; 66]%N) [] heap_empty in
   let '(r, h2, w) := writes_to bal fint_demo d' (u "utf-8") h' in
   x = None ∧ r = inl tt ∧ ∃ k ks, parse_ns (w_out w) = Some (XElem cim_decls (rdf_name rdf_ns "RDF") [] (XElem [] (cim_name cim_ns (u "GeneratingUnit")) k (XElem [] (cim_name cim_ns (u "IdentifiedObject.name")) [] [XText [65; 10; 66]%N] :: ks.1) :: ks.2))).
Proof. vm_compute. split; [done|]. split; [done|]. by eexists _, (_, _). Qed.

(** *** C53 *)
(** Whatever is in the dictionary, and whether cimwrite returns or raises. *)
Theorem C53_read_only t fint uri prefix d enc h : snd (fst (cimwrite t fint uri prefix d enc h)) = h.
Proof. apply cimwrite_keeps. Qed.
Print Assumptions C53_read_only.
(** An object that is not a CIM object stops the writer. *)
Example C53_example :
  let '(r, h2, w) := writes_to bal fint_demo [(u "a", VInt 3)] (u "utf-8") heap_empty in r = inr AttributeError ∧ h2 = heap_empty.
Proof. vm_compute. by split. Qed.
